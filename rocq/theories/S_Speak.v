(* RFC 8446 section 5: application data is protected. *)
From Verif Require Import Base Iana Crypto Config Cipher Conn S_Send.

(* the states of the handshake in which the library lets the user write *)
Definition speaks (s : state) : bool := match s with ServerWaitFinished _ | Connected => true | _ => false end.

(* what was appended to the output is [d], cut in pieces, each wrapped and
   sealed under the current write key *)
Definition secret_output (C : crypto) (c c' : conn) (d : bytes) : Prop :=
  exists x key frags ss, c_cipher c = Some x /\ d_key (cs_w x) = Some key /\
    concat frags = d /\
    c_out c' = c_out c ++ concat (map (sealed_record C (cs_suite x)) ss) /\
    Forall (fun s => se_key s = key) ss /\
    Forall2 (fun f s => wraps CT_APPDATA f (se_data s)) frags ss.
