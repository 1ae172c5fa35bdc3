(* What a peer can make a connection hold. *)
From Verif Require Import Base Crypto Config Conn S_Hist.

(* the longest record: its header, a fragment of 2^14 bytes, 256 bytes of
   expansion (RFC 8446 5.2) *)
Definition RECORD_MAX : N := 5 + 16384 + 256.
(* a handshake message: its header and what a length of three bytes allows *)
Definition MESSAGE_MAX : N := 4 + 16777215.
(* opening a record does not make it longer *)
Definition opens_short (C : crypto) : Prop :=
  forall suite key nonce data aad p, cr_open C suite key nonce data aad = Some p -> blen p <= blen data.
(* the calls returned, all of them *)
Fixpoint smooth (C : crypto) (ops : list op) (c : conn) : Prop :=
  match ops with
  | [] => True
  | o :: ops' => (exists b, fst (step C o c) = Ok b) /\ smooth C ops' (after C o c)
  end.
