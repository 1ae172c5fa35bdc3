From Verif Require Import Base Iana Crypto Kex Toy S_Kex P_Kex.

(* C35 *)
Theorem c35_agree C g v x y X Y s : In (g, v) ffdhe_groups ->
  kx_init C g x = Ok X -> kx_init C g y = Ok Y -> kx_resume C g x Y = Ok s ->
  exists f, ffdhe_params g = Some f /\ 8 * blen s = fst v /\ 8 * blen X = fst v /\
    of_bytes s = dh_shared (ff_p f) (of_bytes x) (of_bytes y) /\
    forall s', kx_resume C g y X = Ok s' -> s' = s.
Proof. exact (ffdhe_agree C g v x y X Y s). Qed.
Print Assumptions c35_agree.

Theorem c35_refused C g v f priv peer : In (g, v) ffdhe_groups -> ffdhe_params g = Some f ->
  of_bytes peer < 2 \/ ff_p f - 2 < of_bytes peer ->
  kx_resume C g priv peer = Err (XAlert INSUFFICIENT_SECURITY) \/ kx_resume C g priv peer = Err XValue.
Proof. exact (ffdhe_refused C g v f priv peer). Qed.
Print Assumptions c35_refused.

Theorem c35_accepted C g v f priv peer n : In (g, v) ffdhe_groups -> ffdhe_params g = Some f ->
  significant peer n -> ff_min f <= n -> 2 <= of_bytes peer -> of_bytes peer <= ff_p f - 2 ->
  exists s, kx_resume C g priv peer = Ok s /\ of_bytes s = of_bytes peer ^ of_bytes priv mod ff_p f /\ 8 * blen s = fst v.
Proof. exact (ffdhe_accepted C g v f priv peer n). Qed.
Print Assumptions c35_accepted.

Theorem c35_small C g v f priv peer n : In (g, v) ffdhe_groups -> ffdhe_params g = Some f -> significant peer n -> n < ff_min f ->
  kx_resume C g priv peer = Err (XAlert INSUFFICIENT_SECURITY).
Proof. exact (ffdhe_small C g v f priv peer n). Qed.
Print Assumptions c35_small.

(* of the binary digits of e in p, the first 2942 are checked: all of them for
   the groups of 2048 and 3072 bits.  That p and q are prime is not proved. *)
Theorem c35_numbers g b X f : In (g, (b, X)) ffdhe_groups -> ffdhe_params g = Some f ->
  rfc7919_prime 2942 b X (ff_p f) /\ ff_p f = 2 * ff_q f + 1.
Proof. exact (ffdhe_numbers g b X f). Qed.
Print Assumptions c35_numbers.

(* private exponents 2047 and 2046, of public values 2^2047 and 2^2046 *)
Definition c35_X : bytes := x80 :: repeat x00 255.
Definition c35_Y : bytes := x40 :: repeat x00 255.
Example c35_case : exists s, kx_init toy ffdhe2048 [x07; xff] = Ok c35_X /\ kx_init toy ffdhe2048 [x07; xfe] = Ok c35_Y /\
  kx_resume toy ffdhe2048 [x07; xff] c35_Y = Ok s /\ kx_resume toy ffdhe2048 [x07; xfe] c35_X = Ok s.
Proof.
  assert (I : In (ffdhe2048, (2048, 560316)) ffdhe_groups) by (left; reflexivity).
  assert (X : kx_init toy ffdhe2048 [x07; xff] = Ok c35_X) by (vm_compute; reflexivity).
  assert (Y : kx_init toy ffdhe2048 [x07; xfe] = Ok c35_Y) by (vm_compute; reflexivity).
  assert (SX : significant c35_X 256) by (exists 0%nat, c35_X; split; [reflexivity|]; split; [vm_compute; reflexivity | discriminate]).
  assert (SY : significant c35_Y 256) by (exists 0%nat, c35_Y; split; [reflexivity|]; split; [vm_compute; reflexivity | discriminate]).
  destruct (params_of _ _ I) as (f & P & _).
  assert (R : forall p, p = c35_X \/ p = c35_Y -> ff_min f <= 256 /\ 2 <= of_bytes p /\ of_bytes p <= ff_p f - 2).
  { injection P; intros <-. intros p [-> | ->]; repeat split; apply N.leb_le; vm_compute; reflexivity. }
  clear - I X Y SX SY P R.
  destruct (R _ (or_introl eq_refl)) as (R1 & R2 & R3). destruct (R _ (or_intror eq_refl)) as (_ & R4 & R5).
  destruct (ffdhe_accepted toy _ _ f [x07; xff] c35_Y 256 I P SY R1 R4 R5) as (s & E & _).
  destruct (ffdhe_accepted toy _ _ f [x07; xfe] c35_X 256 I P SX R1 R2 R3) as (s' & E' & _).
  exists s. split; [exact X|]. split; [exact Y|]. split; [exact E|].
  destruct (ffdhe_agree toy _ _ _ _ _ _ _ I X Y E) as (_ & _ & _ & _ & _ & A). rewrite E', (A _ E'). reflexivity.
Qed.
Example c35_refused_case : kx_resume toy ffdhe2048 [x03] (repeat xff 256) = Err XValue.
Proof. vm_compute. reflexivity. Qed.
