(* C27: the hypotheses on external code are met by the primitives of the RFCs *)
From Coq Require Import String.
From Verif Require Import Base Iana Crypto Config Serial Ext Msg Hkdf Cipher Conn S_Utils S_Hist S_Conn S_Send S_Keys S_Server S_Deliver S_Honest P_Deliver P_Honest10 P_Honest11 P_Honest12 Toy P_Toy P_HonestToy Real P_Real T_Honest.
Local Open Scope list_scope.
Local Open Scope N_scope.

Theorem c27_real : honest_crypto real.
Proof. exact real_honest. Qed.
Print Assumptions c27_real.

(* two endpoints with them, that the theorem of C27 connects *)
Example c27_case_real : honest_crypto real /\ compatible real c27_gc c27_gs (toy_c c27_gc) (toy_s c27_gs) /\
  wide_fragments c27_gc /\ first_share c27_gc c27_gs /\ no_ccm c27_gc c27_gs /\
  c_state (run real (client_ops real (toy_c c27_gc) (toy_s c27_gs)) (toy_c c27_gc)) = Connected /\
  c_state (run real (server_ops real (toy_c c27_gc) (toy_s c27_gs)) (toy_s c27_gs)) = Connected.
Proof.
  destruct c27_case as (_ & K & W & F & N).
  pose proof (real_compatible _ _ _ _ K) as K'. destruct (c27_honest_partial _ _ _ _ _ real_honest K' W F N) as (_ & _ & A & B & _).
  exact (conj real_honest (conj K' (conj W (conj F (conj N (conj A B)))))).
Qed.

(* --- published vectors ------------------------------------------------------ *)
(* FIPS 180-4 *)
Example c25_sha256 : of_bytes (cr_hash real SHA256 (ascii_bytes "abc")) =
  0xba7816bf8f01cfea414140de5dae2223b00361a396177a9cb410ff61f20015ad.
Proof. vm_compute. reflexivity. Qed.
(* RFC 5869 A.1 *)
Example c25_hkdf :
  let prk := hkdf_extract real SHA256 (be_bytes 13 0x000102030405060708090a0b0c) (repeat x0b 22) in
  of_bytes prk = 0x077709362c2e32df0ddc3f0dc47bba6390b6c73bb50f9c3122ec844ad7c2b3e5 /\
  hkdf_expand real SHA256 prk (be_bytes 10 0xf0f1f2f3f4f5f6f7f8f9) 42 =
    Ok (be_bytes 42 0x3cb25f25faacd57a90434f64d0362f2a2d2d0a90cf1a5a4c5db02d56ecc4c5bf34007208d5b887185865).
Proof. vm_compute. split; reflexivity. Qed.

(* RFC 8448, section 3: the secrets of a handshake *)
Definition c25_cs0 : cs := cs_new 0 0 TLS_AES_128_GCM_SHA256 Client.
Definition c25_shared := be_bytes 32 0x8bd4054fb55b9d63fdfbacf9f04b9f0d35e6d63f537563efd46272900f89492d.
Definition c25_th := be_bytes 32 0x860c06edc07858ee8e78f0e7428c58edd6b43f2ca3e6e95f02ed063cf0e1cad8.
Example c25_8448 :
  let '(a, c1) := skip_early_secrets real c25_cs0 in
  let '(b, c2) := derive_handshake_secrets real c25_shared c25_th c1 in
  a = Ok tt /\ b = Ok tt /\
  cs_salt c1 = be_bytes 32 0x6f2615a108c702c5678f54fc9dbab69716c076189c48250cebeac3576c3611ba /\
  d_key (cs_r c2) = Some (be_bytes 16 0x3fce516009c21727d0f2e4e86ee403bc) /\
  d_iv (cs_r c2) = Some 0x5d313eb2671276ee13000b30.
Proof. vm_compute. repeat split. Qed.
(* the hellos of that handshake, their hash, and what the parsers make of them *)
Definition c25_ch := be_bytes 196 0x010000c00303cb34ecb1e78163ba1c38c6dacb196a6dffa21a8d9912ec18a2ef6283024dece7000006130113031302010000910000000b0009000006736572766572ff01000100000a00140012001d0017001800190100010101020103010400230000003300260024001d002099381de560e4bd43d23d8e435a7dbafeb3c06e51c13cae4d5413691e529aaf2c002b0003020304000d0020001e040305030603020308040805080604010501060102010402050206020202002d00020101001c00024001.
Definition c25_sh := be_bytes 90 0x020000560303a6af06a4121860dc5e6e60249cd34c95930c8ac5cb1434dac155772ed3e2692800130100002e00330024001d0020c9828876112095fe66762bdbf7c672e156d6cc253b833df1dd69b1b04e751f0f002b00020304.
Example c25_8448_hash : cr_hash real SHA256 (c25_ch ++ c25_sh) = c25_th.
Proof. vm_compute. reflexivity. Qed.
Example c02_8448_server : match parse_hs real None (stream_of c25_sh) with
  | Ok (h, s) => h = HServerHello false (be_bytes 32 0xa6af06a4121860dc5e6e60249cd34c95930c8ac5cb1434dac155772ed3e26928) []
      TLS_AES_128_GCM_SHA256 [EKeyShareResp x25519 (be_bytes 32 0xc9828876112095fe66762bdbf7c672e156d6cc253b833df1dd69b1b04e751f0f);
        ESupVersionsResp 0x0304] /\ s_pos s = 90
  | _ => False end.
Proof. vm_compute. split; reflexivity. Qed.
Example c02_8448_client : match parse_hs real None (stream_of c25_ch) with
  | Ok (HClientHello rnd _ suites exts, s) =>
      of_bytes rnd = 0xcb34ecb1e78163ba1c38c6dacb196a6dffa21a8d9912ec18a2ef6283024dece7 /\
      suites = [TLS_AES_128_GCM_SHA256; TLS_CHACHA20_POLY1305_SHA256; TLS_AES_256_GCM_SHA384] /\
      map ext_type exts = [0; 0xff01; 10; 35; 51; 43; 13; 45; 28] /\
      In (EServerNameReq (Some (ascii_bytes "server"))) exts /\
      In (EKeyShareReq [(x25519, be_bytes 32 0x99381de560e4bd43d23d8e435a7dbafeb3c06e51c13cae4d5413691e529aaf2c)]) exts /\ s_pos s = 196
  | _ => False end.
Proof. vm_compute. repeat split; tauto. Qed.

(* --- authenticated encryption, through the functions of the model ------------ *)
(* [key] and [nonce] installed for writing, the data encrypted *)
Definition c25_seal (suite : N) (key : bytes) (iv : N) (data aad : bytes) : option bytes :=
  let c := cs_set_w (cs_new 0 0 suite Client) (mkDir (Some key) (Some iv) (Some (seq_new 5)) 0) in
  match encrypt real data aad c with (Ok (b, _), _) => Some b | _ => None end.
(* the AES-GCM specification, test case 2; FIPS 197 and RFC 3610 were compared too *)
Example c25_gcm : c25_seal TLS_AES_128_GCM_SHA256 (zeros 16) 0 (zeros 16) [] =
  Some (be_bytes 32 0x0388dace60b6a392f328c2b971b2fe78ab6e47d42cec13bdf53a67b21257bddf).
Proof. vm_compute. reflexivity. Qed.
(* RFC 8439, 2.8.2 *)
Example c25_chacha : option_map (fun b => (of_bytes (btake 16 b), of_bytes (bdrop 114 b)))
  (c25_seal TLS_CHACHA20_POLY1305_SHA256
    (be_bytes 32 0x808182838485868788898a8b8c8d8e8f909192939495969798999a9b9c9d9e9f) 0x070000004041424344454647
    (ascii_bytes "Ladies and Gentlemen of the class of '99: If I could offer you only one tip for the future, sunscreen would be it.")
    (be_bytes 12 0x50515253c0c1c2c3c4c5c6c7)) =
  Some (0xd31a8d34648e60db7b86afbc53ef7ec2, 0x1ae10b594f09e26a7e902ecbd0600691).
Proof. vm_compute. reflexivity. Qed.
