(* What a wrapped socket must hand over. *)
From Verif Require Import Base Iana Crypto Config Conn S_Hist S_Conn Wrapper.

(* From an empty output, all that the calls made on the connection appended to
   it was given to the socket, or is still in the output, which is empty when
   the method returned. *)
Definition hands_over (C : crypto) {A} (m : W A) : Prop :=
  forall c k r c' k', sk_accept k = [] -> c_out c = [] -> m (c, k) = (r, (c', k')) ->
  exists ops e, c' = run C ops c /\ emits C ops c e /\ sk_sent k' ++ c_out c' = sk_sent k ++ e /\
    forall a, r = Ok a -> c_out c' = [].
