(* RFC 8446 7.1 with a pre-shared key, and histories of calls of a cipher object. *)
From Verif Require Import Base Iana Crypto Cipher S_Utils S_Keys S_Nonce Early.
Local Open Scope string_scope.
Local Open Scope list_scope.
Local Open Scope N_scope.

Inductive psk_kind := External | Resumption.
Section schedule.
Variable C : crypto.
Variable h : hashalg.
(* PSK ->  HKDF-Extract = Early Secret, salt 0 *)
Definition psk_early (psk : bytes) : bytes := cr_hmac C h (zero_block h) psk.
Definition binder_key (kind : psk_kind) (psk : bytes) : bytes :=
  derived C h (psk_early psk) (match kind with External => "ext binder" | Resumption => "res binder" end) (cr_hash C h []).
Definition early_traffic (psk th : bytes) : bytes := derived C h (psk_early psk) "c e traffic" th.
Definition early_exporter (psk th : bytes) : bytes := derived C h (psk_early psk) "e exp master" th.
Definition psk_handshake (psk shared : bytes) : bytes :=
  cr_hmac C h (derived C h (psk_early psk) "derived" (cr_hash C h [])) shared.
Definition psk_master (psk shared : bytes) : bytes :=
  cr_hmac C h (derived C h (psk_handshake psk shared) "derived" (cr_hash C h [])) (zero_block h).
Definition psk_hs_traffic (sd : side) (psk shared th : bytes) : bytes :=
  derived C h (psk_handshake psk shared) (match sd with Client => "c hs traffic" | Server => "s hs traffic" end) th.
Definition psk_ap_traffic (sd : side) (psk shared th : bytes) : bytes :=
  derived C h (psk_master psk shared) (match sd with Client => "c ap traffic" | Server => "s ap traffic" end) th.

(* the calls that derive keys, in the order of the schedule; without a PSK its
   place is taken by a string of zeros *)
Definition psk_used (k : call) : bytes := match k with KEarly psk _ _ => psk | _ => zero_block h end.
Definition opening (k : call) : Prop :=
  match k with KSkip => True | KEarly _ mode _ => mode = "external" \/ mode = "resume" | _ => False end.
Definition ending (k : call) : Prop := match k with KMaster _ _ => True | _ => False end.
Definition scheduled (l : list call) : Prop :=
  match l with
  | [] => True
  | [e] => opening e
  | e :: KHandshake _ _ :: ms => opening e /\ Forall ending ms
  | _ => False
  end.
(* the traffic secrets of what [sd] writes *)
Definition written (sd : side) (l : list call) : list bytes :=
  match l with
  | [] => []
  | e :: l' =>
    (match sd, e with Client, KEarly psk _ th => [early_traffic psk th] | _, _ => [] end) ++
    match l' with
    | KHandshake shared th :: ms =>
      psk_hs_traffic sd (psk_used e) shared th ::
      flat_map (fun k => match k with KMaster sf _ => [psk_ap_traffic sd (psk_used e) shared sf] | _ => [] end) ms
    | _ => []
    end
  end.
End schedule.
(* a direction uses the latest of some secrets, or is in the clear *)
Definition latest (C : crypto) (h : hashalg) (klen : N) (l : list bytes) (d : dir) : Prop :=
  match rev l with [] => d_key d = None | s :: _ => uses C h klen s d end.

(* what came of a list of calls: the answers, the object, the calls to derive
   keys that returned, the sealings (latest first) *)
Record past := mkPast { p_answers : list (res answer); p_obj : cs; p_keys : list call; p_seals : list sealing }.
Definition deriving (k : call) : bool :=
  match k with KSkip | KEarly _ _ _ | KHandshake _ _ | KMaster _ _ => true | _ => false end.
Definition do_call (C : crypto) (p : past) (k : call) : past :=
  let '(r, x, s) := call_step C k (p_obj p) in
  mkPast (p_answers p ++ [r]) x
    (match r with Ok _ => if deriving k then p_keys p ++ [k] else p_keys p | Err _ => p_keys p end) (s ++ p_seals p).
Definition calls (C : crypto) (l : list call) (x : cs) : past := fold_left (do_call C) l (mkPast [] x [] []).
(* transcript hashes have the size of a hash, or at most 255 bytes *)
Definition sized_call (k : call) : Prop :=
  match k with
  | KEarly _ _ th => blen th <= 255 | KHandshake _ th => blen th <= 255 | KMaster a b => blen a <= 255 /\ blen b <= 255
  | _ => True
  end.
(* key and nonce of a sealing *)
Definition key_nonce (s : sealing) : bytes * bytes := (se_key s, se_nonce s).
(* how psk_mode spells the kind *)
Definition named (kind : psk_kind) : String.string := match kind with External => "external" | Resumption => "resume" end.
(* data with its associated data is encrypted, and what was made of it decrypted *)
Definition seal_call (d : bytes * bytes) : call := KEncrypt (fst d) (snd d).
Definition open_call (x : bytes * (bytes * bytes)) : call := KDecrypt (fst x) (snd (snd x)).
