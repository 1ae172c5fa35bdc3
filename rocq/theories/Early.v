(* The part of crypto/ciphers.py that the connection does not use: keys derived
   from a pre-shared key, and the object used alone, with its methods called in any
   order. *)
From Verif Require Import Base Iana Crypto Hkdf Cipher.
Local Open Scope string_scope.
Local Open Scope list_scope.
Local Open Scope N_scope.

Definition l_eexp := ascii_bytes "e exp master".
Definition l_cet := ascii_bytes "c e traffic".

(* ciphers.py:55-69, but for the salt: binder key, early exporter, early traffic *)
Definition derive_early (C : crypto) (suite : N) (secret : bytes) (label th : bytes) : res (bytes * bytes * bytes) :=
  let h := hash_of suite in
  let* b := derive_secret C h secret label (hash_empty C h) in
  let* e := derive_secret C h secret l_eexp th in
  let* t := derive_secret C h secret l_cet th in
  Ok (b, e, t).

(* ciphers.py:214-222 one direction only *)
Definition install_early (k iv : bytes) (c : cs) : res unit * cs :=
  match cs_side c with
  | Client => match install (cs_suite c) k iv (cs_w c) with (r, d) => (r, cs_set_w c d) end
  | Server => match install (cs_suite c) k iv (cs_r c) with (r, d) => (r, cs_set_r c d) end
  end.

(* ciphers.py:209-228, 54-69.  [mode] is the text given as psk_mode, [:3] of it
   starts the label *)
Definition derive_early_secrets (C : crypto) (psk : bytes) (mode : String.string) (th : bytes) (c : cs)
  : res (bytes * bytes) * cs :=
  if negb (cs_state c =? 0) then (Err XAssert, c)
  else if negb (String.eqb mode "external" || String.eqb mode "resume") then (Err XAssert, c)
  else
    let label := ascii_bytes (String.append (String.substring 0 3 mode) " binder") in
    match extract_and_advance C psk c with
    | (Err e, c1) => (Err e, c1)
    | (Ok secret, c1) =>
      match derive_early C (cs_suite c) secret label th with
      | Err e => (Err e, c1)
      | Ok (b, x, t) =>
        match derive_key_and_iv C (cs_suite c) t with
        | Err e => (Err e, c1)
        | Ok (k, iv) =>
          match install_early k iv c1 with
          | (Err e, c2) => (Err e, c2)
          | (Ok _, c2) => (Ok (b, x), cs_logs [("CLIENT_EARLY_TRAFFIC_SECRET", t)] c2)
          end
        end
      end
    end.

(* the methods of the object *)
Inductive call :=
| KSkip | KEarly (psk : bytes) (mode : String.string) (th : bytes)
| KHandshake (shared th : bytes) | KMaster (th_sf th_cf : bytes)
| KEncrypt (data aad : bytes) | KDecrypt (data aad : bytes)
| KSign (th : bytes) | KVerify (th other : bytes) | KRekey.
Inductive answer := ANone | ABytes (b : bytes) | APair (a b : bytes) | ABool (b : bool).
(* ghost: the sealing made by the call *)
Definition call_step (C : crypto) (k : call) (c : cs) : res answer * cs * list sealing :=
  match k with
  | KSkip => let '(r, c') := skip_early_secrets C c in (let* _ := r in Ok ANone, c', [])
  | KEarly psk mode th => let '(r, c') := derive_early_secrets C psk mode th c in (let* p := r in Ok (APair (fst p) (snd p)), c', [])
  | KHandshake shared th => let '(r, c') := derive_handshake_secrets C shared th c in (let* _ := r in Ok ANone, c', [])
  | KMaster a b => let '(r, c') := derive_master_secrets C a b c in (let* p := r in Ok (APair (fst p) (snd p)), c', [])
  | KEncrypt d a =>
    let '(r, c') := encrypt C d a c in
    (let* p := r in Ok (ABytes (fst p)), c', match r with Ok (_, s) => [s] | Err _ => [] end)
  | KDecrypt d a => let '(r, c') := decrypt C d a c in (let* p := r in Ok (ABytes p), c', [])
  | KSign th => (let* b := sign_finish C th c in Ok (ABytes b), c, [])
  | KVerify th o => (let* _ := verify_finish C th o c in Ok ANone, c, [])
  | KRekey => (let* b := should_rekey c in Ok (ABool b), c, [])
  end.
