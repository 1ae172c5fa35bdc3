(* Specification for C02: feeding the input in pieces. *)
From Verif Require Import Base Iana Crypto Config Cipher Conn S_Hist S_Conn.

(* for d in ds: conn.receive_data(d)
   up to the first exception: what it is, and the pieces not fed *)
Fixpoint feed (C : crypto) (ds : list bytes) (c : conn) : res unit * conn * list bytes :=
  match ds with
  | [] => (Ok tt, c, [])
  | d :: ds' =>
    match receive_data C d c with
    | (Ok _, c1) => feed C ds' c1
    | (Err e, c1) => (Err e, c1, ds')
    end
  end.
(* bytes that arrived behind those buffered *)
Definition with_more (b : bytes) (c : conn) : conn := cset_in (c_in c ++ b) c.

(* no complete record is buffered, nor the header of one that is too long *)
Definition max_record (c : conn) : N := max_frag c + (if dec_on c then 256 else 0).
Definition hungry (c : conn) : Prop :=
  incomplete (c_in c) /\ (5 <= blen (c_in c) -> record_length (c_in c) <= max_record c).

(* the check that ends receive_data would raise *)
Definition rekey_due (c : conn) : bool :=
  match c_cipher c with
  | None => false
  | Some x => match should_rekey x with Ok false => false | _ => true end
  end.
(* the limits on fragments are among those of RFC 6066, or 2^14 *)
Definition legal_limits (c : conn) : Prop :=
  valid_mfl (g_mfl (c_config c)) /\ forall n m, c_nc c = Some n -> n_mfl n = Some m -> valid_mfl m.
