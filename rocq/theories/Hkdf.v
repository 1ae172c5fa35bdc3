(* crypto/hkdf.py *)
From Verif Require Import Base Crypto.

(* hkdf.py:7-11 *)
Definition hkdf_extract (C : crypto) (h : hashalg) (salt ikm : bytes) : bytes :=
  let salt := match salt with [] => zeros (digest_size h) | _ => salt end in
  cr_hmac C h salt ikm.

(* hkdf.py:19-22: t[i] for i = [i] .. [i + k - 1], given t[i-1] *)
Fixpoint expand_loop (C : crypto) (h : hashalg) (prk info : bytes) (k : nat) (i : N) (prev : bytes)
  : res (list bytes) :=
  match k with
  | O => Ok []
  | S k' =>
    let* ib := to_bytes 1 i in
    let t := cr_hmac C h prk (prev ++ info ++ ib) in
    let* r := expand_loop C h prk info k' (i + 1) t in
    Ok (t :: r)
  end.

(* math.ceil(a / b) of non-negative integers, b > 0 *)
Definition ceil_div (a b : N) : N := (a + b - 1) / b.

(* hkdf.py:13-25 *)
Definition hkdf_expand (C : crypto) (h : hashalg) (prk info : bytes) (len : N) : res bytes :=
  if len =? digest_size h then Ok (cr_hmac C h prk (info ++ [x01]))
  else
    let* t := expand_loop C h prk info (N.to_nat (ceil_div len (digest_size h))) 1 [] in
    Ok (btake len (concat t)).

(* b'tls13 ' *)
Definition tls13_prefix : bytes := [x74; x6c; x73; x31; x33; x20].

(* hkdf.py:28-35 the HkdfLabel structure *)
Definition hkdf_label (label context : bytes) (len : N) : res bytes :=
  let label := tls13_prefix ++ label in
  let* a := to_bytes 2 len in
  let* b := put_var 1 label in
  let* c := put_var 1 context in
  Ok (a ++ b ++ c).

(* hkdf.py:27-36 *)
Definition hkdf_expand_label (C : crypto) (h : hashalg) (secret label context : bytes) (len : N)
  : res bytes :=
  let* info := hkdf_label label context len in
  hkdf_expand C h secret info len.

(* hkdf.py:38-40 *)
Definition derive_secret (C : crypto) (h : hashalg) (secret label th : bytes) : res bytes :=
  hkdf_expand_label C h secret label th (digest_size h).
