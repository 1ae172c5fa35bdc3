(* A concrete, insecure, instance of the external code, used by the examples
   to show that hypotheses can be met and by the refutations as a witness. *)
From Verif Require Import Base Iana Crypto Config Conn.

(* a polynomial hash *)
Definition toy_mix (b : bytes) : N :=
  fold_left (fun acc x => N.land (acc * 257 + bN x + 1) 1099511627775) b 1.
Definition toy_hash (h : hashalg) (b : bytes) : bytes :=
  match h with
  | SHA256 => be_bytes 32 (toy_mix b)
  | SHA384 => be_bytes 48 (toy_mix b * 65537)
  end.
Definition toy_hmac (h : hashalg) (k m : bytes) : bytes := toy_hash h (k ++ x5c :: m).

(* the "cipher text" is the data followed by a tag that depends on the key,
   the nonce, the first bytes of the data and the associated data (which tells
   its length); everything here is chosen cheap to evaluate *)
Definition toy_sum (b : bytes) : N := fold_left (fun acc x => N.land (acc * 3 + bN x) 65535) b 7.
Definition toy_tag (suite : N) (key nonce data aad : bytes) : bytes :=
  let n := if suite =? TLS_AES_128_CCM_8_SHA256 then 8%nat else 16%nat in
  be_bytes n (toy_sum key + 65536 * toy_sum nonce + 65536 * 65536 * (toy_sum (firstn 8 data) + 65536 * toy_sum aad)).
Definition toy_seal (suite : N) (key nonce data aad : bytes) : bytes :=
  data ++ toy_tag suite key nonce data aad.
Definition toy_open (suite : N) (key nonce ct aad : bytes) : option bytes :=
  let n := if suite =? TLS_AES_128_CCM_8_SHA256 then 8 else 16 in
  if blen ct <? n then None
  else
    let data := btake (blen ct - n) ct in
    if beqb (bdrop (blen ct - n) ct) (toy_tag suite key nonce data aad) then Some data else None.

(* public = private key, shared = byte-wise xor *)
Fixpoint xor_bytes (a b : bytes) : bytes :=
  match a, b with
  | x :: a', y :: b' => Nb (N.lxor (bN x) (bN y)) :: xor_bytes a' b'
  | _, _ => []
  end.

Definition toy : crypto := {|
  cr_hash := toy_hash;
  cr_hmac := toy_hmac;
  cr_seal := toy_seal;
  cr_open := toy_open;
  cr_kx_pub := fun _ priv => priv;
  cr_kx_shared := fun _ priv peer => if beqb peer [] then Err XValue else Ok (xor_bytes priv peer);
  cr_sign := fun s k m => Ok (toy_hash SHA256 (be_bytes 2 s ++ k ++ m));
  cr_sig_verify := fun s k sig m =>
    if beqb sig (toy_hash SHA256 (be_bytes 2 s ++ k ++ m)) then Ok tt else Err XInvalidSig;
  cr_load_cert := fun b => Ok b;
  cr_load_pubkey := fun b => Ok b;
  cr_cert_pubkey := fun b => b;
  cr_cert_pubkey_oid := fun _ => Sig.PK_ED25519;
  cr_cert_sig_oid := fun _ => Sig.SO_ED25519;
  cr_cert_hash_alg := fun _ => 0;
  (* trusts the certificates that start with 'T' *)
  cr_verify_chain := fun _ _ _ leaf _ =>
    match leaf with x54 :: _ => Ok tt | _ => Err XVerif end;
  cr_is_ip := fun _ => false;
  cr_idna_decode := fun b => Ok b;
  cr_idna_encode := fun b => Ok b;
  cr_load_ocsp_req := fun b => Ok (mkOcspReq b [] 0);
  (* a response that starts with 'R' tells that the certificate is revoked *)
  cr_load_ocsp_res := fun b => Ok (mkOcspRes true (match b with x52 :: _ => false | _ => true end) b [] 0 0 (Some 100) Sig.SO_ED25519 0
                                     (toy_hash SHA256 (be_bytes 2 ed25519 ++ b)) []);
  cr_ocsp_url := fun _ => Ok None;
  cr_make_ocsp_req := fun _ issuer => Ok issuer;
  cr_ocsp_fetch := fun _ b => Ok b;
  cr_now := 10;
  cr_sig_args := true
|}.

Definition toy_cert : bytes := ascii_bytes "Trusted certificate"%string.
Definition toy_rng (seed : N) (i : N) : bytes := be_bytes 32 ((seed + i + 1) * 0x123456789abcd).
Definition toy_suites := [TLS_CHACHA20_POLY1305_SHA256; TLS_AES_128_GCM_SHA256].
Definition toy_client : config :=
  mkConfig Client toy_suites [x25519; secp256r1] [ed25519; ed448] (Some 1) None 5 [] None None None
    16384 true [ascii_bytes "h2"%string; ascii_bytes "http/1.1"%string] [].
Definition toy_server : config :=
  mkConfig Server toy_suites [x25519; secp256r1] [ed25519; ed448] None None 5 []
    (Some toy_cert) None (Some [toy_cert]) 16384 true
    [ascii_bytes "http/1.1"%string; ascii_bytes "h2"%string] [].

(* A connection that does nothing, for error cases *)
Definition dummy : conn :=
  mkConn toy_client None false None None None (Transcript.mkTr [] 0) [] [] [] [] None None Failed
    (fun _ => []) 0 [] [].
Definition get_ok (r : res conn) : conn := match r with Ok c => c | Err _ => dummy end.

Definition toy_c0 : conn :=
  get_ok (new_conn false toy_client (Some (ascii_bytes "example.org"%string)) false
            (toy_rng 1 100) (toy_rng 1)).
Definition toy_s0 : conn :=
  get_ok (new_conn false toy_server None false (toy_rng 2 100) (toy_rng 2)).

Definition run_snd {A} (m : M A) (c : conn) : conn := snd (m c).

(* the client sends its ClientHello, the server answers, the client finishes *)
Definition toy_c1 := run_snd (initiate_connection toy) toy_c0.
Definition toy_s1 := run_snd (initiate_connection toy) toy_s0.
Definition toy_s2 := run_snd (receive_data toy (c_out toy_c1)) toy_s1.
Definition toy_c2 := run_snd (receive_data toy (c_out toy_s2)) (cset_out [] toy_c1).
Definition toy_s3 := run_snd (receive_data toy (c_out toy_c2)) (cset_out [] toy_s2).
