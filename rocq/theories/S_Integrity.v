(* What an endpoint may obtain when somebody else controls the network. *)
From Verif Require Import Base Iana Crypto Config Cipher Conn S_Hist S_Send S_Nonce.

(* what the send_data calls of a history were given, except those made when
   application data may not be sent *)
Fixpoint written (C : crypto) (ops : list op) (c : conn) : bytes :=
  match ops with
  | [] => []
  | o :: ops' =>
    (match o with OSend d => if can_send_app (c_state c) then d else [] | _ => [] end)
    ++ written C ops' (after C o c)
  end.

(* an AEAD that cannot be forged: under the key [k] only what is in [log] opens *)
Definition authentic (C : crypto) (suite : N) (k : bytes) (log : list sealing) : Prop :=
  forall nonce ct aad p, cr_open C suite k nonce ct aad = Some p ->
  exists s, In s log /\ se_key s = k /\ se_nonce s = nonce /\ se_data s = p.
(* the keys used before the present one were other keys *)
Definition fresh_key (c : conn) : Prop :=
  forall x s, c_cipher c = Some x -> In s (c_log c) -> Some (se_key s) = d_key (cs_w x) ->
  se_epoch s = d_epoch (cs_w x).
(* [b] reads with the key that [a] writes with: whatever opens was sealed by [a] *)
Definition unforgeable (C : crypto) (a : conn) (log : list sealing) : Prop :=
  fresh_key a /\
  forall x k, c_cipher a = Some x -> d_key (cs_w x) = Some k -> authentic C (cs_suite x) k log.

(* what the records carry that hold application data, in their order *)
Inductive carried : list sealing -> list bytes -> Prop :=
| carried_nil : carried [] []
| carried_data s l p ps : wraps CT_APPDATA p (se_data s) -> carried l ps -> carried (s :: l) (p :: ps)
| carried_other s l ct p ps : wraps ct p (se_data s) -> ct < 256 -> ct <> CT_APPDATA -> ct <> 0 -> carried l ps -> carried (s :: l) ps.
(* some of the elements, in the same order *)
Inductive subseq {A} : list A -> list A -> Prop :=
| subseq_nil : subseq [] []
| subseq_skip x l m : subseq l m -> subseq l (x :: m)
| subseq_take x l m : subseq l m -> subseq (x :: l) (x :: m).
