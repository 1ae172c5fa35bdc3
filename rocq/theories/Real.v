(* The primitives that the library takes from hashlib, hmac and cryptography, as
   their standards define them: an instance of the external code that is not a
   toy.  Used only by examples, to show that what theorems assume of external code
   is met by the real one, and to compare the model with published test vectors.
   The keys, certificates and signatures are those of Toy.v. *)
From Verif Require Import Base Iana Crypto Config Conn Toy.
Local Open Scope list_scope.
Local Open Scope N_scope.

Fixpoint blocks (fuel n : nat) (b : bytes) : list bytes :=
  match fuel, b with
  | S f, _ :: _ => firstn n b :: blocks f n (skipn n b)
  | _, _ => []
  end.
Definition cut (n : nat) (b : bytes) : list bytes := blocks (length b) n b.
Definition zeros (n : N) : bytes := repeat x00 (N.to_nat n).

(* --- SHA-256 and SHA-384, FIPS 180-4 ---------------------------------------- *)
(* FIPS 180-4, 4.2.2 and 5.3.3 *)
Definition sha256_k : list N :=
  [0x428a2f98; 0x71374491; 0xb5c0fbcf; 0xe9b5dba5; 0x3956c25b; 0x59f111f1; 0x923f82a4; 0xab1c5ed5;
   0xd807aa98; 0x12835b01; 0x243185be; 0x550c7dc3; 0x72be5d74; 0x80deb1fe; 0x9bdc06a7; 0xc19bf174;
   0xe49b69c1; 0xefbe4786; 0x0fc19dc6; 0x240ca1cc; 0x2de92c6f; 0x4a7484aa; 0x5cb0a9dc; 0x76f988da;
   0x983e5152; 0xa831c66d; 0xb00327c8; 0xbf597fc7; 0xc6e00bf3; 0xd5a79147; 0x06ca6351; 0x14292967;
   0x27b70a85; 0x2e1b2138; 0x4d2c6dfc; 0x53380d13; 0x650a7354; 0x766a0abb; 0x81c2c92e; 0x92722c85;
   0xa2bfe8a1; 0xa81a664b; 0xc24b8b70; 0xc76c51a3; 0xd192e819; 0xd6990624; 0xf40e3585; 0x106aa070;
   0x19a4c116; 0x1e376c08; 0x2748774c; 0x34b0bcb5; 0x391c0cb3; 0x4ed8aa4a; 0x5b9cca4f; 0x682e6ff3;
   0x748f82ee; 0x78a5636f; 0x84c87814; 0x8cc70208; 0x90befffa; 0xa4506ceb; 0xbef9a3f7; 0xc67178f2].
Definition sha256_h : list N :=
  [0x6a09e667; 0xbb67ae85; 0x3c6ef372; 0xa54ff53a; 0x510e527f; 0x9b05688c; 0x1f83d9ab; 0x5be0cd19].
(* 4.2.3 and 5.3.4 *)
Definition sha512_k : list N :=
  [0x428a2f98d728ae22; 0x7137449123ef65cd; 0xb5c0fbcfec4d3b2f; 0xe9b5dba58189dbbc; 0x3956c25bf348b538; 0x59f111f1b605d019;
   0x923f82a4af194f9b; 0xab1c5ed5da6d8118; 0xd807aa98a3030242; 0x12835b0145706fbe; 0x243185be4ee4b28c; 0x550c7dc3d5ffb4e2;
   0x72be5d74f27b896f; 0x80deb1fe3b1696b1; 0x9bdc06a725c71235; 0xc19bf174cf692694; 0xe49b69c19ef14ad2; 0xefbe4786384f25e3;
   0x0fc19dc68b8cd5b5; 0x240ca1cc77ac9c65; 0x2de92c6f592b0275; 0x4a7484aa6ea6e483; 0x5cb0a9dcbd41fbd4; 0x76f988da831153b5;
   0x983e5152ee66dfab; 0xa831c66d2db43210; 0xb00327c898fb213f; 0xbf597fc7beef0ee4; 0xc6e00bf33da88fc2; 0xd5a79147930aa725;
   0x06ca6351e003826f; 0x142929670a0e6e70; 0x27b70a8546d22ffc; 0x2e1b21385c26c926; 0x4d2c6dfc5ac42aed; 0x53380d139d95b3df;
   0x650a73548baf63de; 0x766a0abb3c77b2a8; 0x81c2c92e47edaee6; 0x92722c851482353b; 0xa2bfe8a14cf10364; 0xa81a664bbc423001;
   0xc24b8b70d0f89791; 0xc76c51a30654be30; 0xd192e819d6ef5218; 0xd69906245565a910; 0xf40e35855771202a; 0x106aa07032bbd1b8;
   0x19a4c116b8d2d0c8; 0x1e376c085141ab53; 0x2748774cdf8eeb99; 0x34b0bcb5e19b48a8; 0x391c0cb3c5c95a63; 0x4ed8aa4ae3418acb;
   0x5b9cca4f7763e373; 0x682e6ff3d6b2b8a3; 0x748f82ee5defb2fc; 0x78a5636f43172f60; 0x84c87814a1f0ab72; 0x8cc702081a6439ec;
   0x90befffa23631e28; 0xa4506cebde82bde9; 0xbef9a3f7b2c67915; 0xc67178f2e372532b; 0xca273eceea26619c; 0xd186b8c721c0c207;
   0xeada7dd6cde0eb1e; 0xf57d4f7fee6ed178; 0x06f067aa72176fba; 0x0a637dc5a2c898a6; 0x113f9804bef90dae; 0x1b710b35131c471b;
   0x28db77f523047d84; 0x32caab7b40c72493; 0x3c9ebe0a15c9bebc; 0x431d67c49c100d4c; 0x4cc5d4becb3e42b6; 0x597f299cfc657e2a;
   0x5fcb6fab3ad6faec; 0x6c44198c4a475817].
Definition sha384_h : list N :=
  [0xcbbb9d5dc1059ed8; 0x629a292a367cd507; 0x9159015a3070dd17; 0x152fecd8f70e5939;
   0x67332667ffc00b31; 0x8eb44a8768581511; 0xdb0c2e0d64f98fa7; 0x47b5481dbefa4fa4].

Definition rotr (w n x : N) : N := N.lor (N.shiftr x n) (N.land (N.shiftl x (w - n)) (N.ones w)).
Definition addw (w a b : N) : N := N.land (a + b) (N.ones w).
Definition xor3 (a b c : N) : N := N.lxor (N.lxor a b) c.
(* the word size in bits, and the amounts by which the functions of 4.1.2 and
   4.1.3 turn: two with three rotations, two with a shift *)
Record shaspec := mkSha { sh_w : N; sh_S0 : N * N * N; sh_S1 : N * N * N; sh_s0 : N * N * N; sh_s1 : N * N * N; sh_k : list N; sh_h : list N }.
Definition sha256_spec : shaspec := mkSha 32 (2, 13, 22) (6, 11, 25) (7, 18, 3) (17, 19, 10) sha256_k sha256_h.
Definition sha384_spec : shaspec := mkSha 64 (28, 34, 39) (14, 18, 41) (1, 8, 7) (19, 61, 6) sha512_k sha384_h.
Definition turn3 (w : N) (t : N * N * N) (x : N) : N := let '(a, b, c) := t in xor3 (rotr w a x) (rotr w b x) (rotr w c x).
Definition turn2 (w : N) (t : N * N * N) (x : N) : N := let '(a, b, c) := t in xor3 (rotr w a x) (rotr w b x) (N.shiftr x c).
Record shast := mkSt { v_a : N; v_b : N; v_c : N; v_d : N; v_e : N; v_f : N; v_g : N; v_h : N }.
Definition sha_round (sp : shaspec) (k x : N) (s : shast) : shast :=
  let w := sh_w sp in
  let ch := N.lxor (N.land (v_e s) (v_f s)) (N.land (N.lxor (v_e s) (N.ones w)) (v_g s)) in
  let maj := xor3 (N.land (v_a s) (v_b s)) (N.land (v_a s) (v_c s)) (N.land (v_b s) (v_c s)) in
  let t1 := addw w (v_h s + turn3 w (sh_S1 sp) (v_e s) + ch + k) x in
  let t2 := turn3 w (sh_S0 sp) (v_a s) + maj in
  mkSt (addw w t1 t2) (v_a s) (v_b s) (v_c s) (addw w (v_d s) t1) (v_e s) (v_f s) (v_g s).
(* [win]: the next sixteen words of the message schedule *)
Fixpoint sha_rounds (sp : shaspec) (ks win : list N) (s : shast) : shast :=
  match ks, win with
  | k :: ks', x :: rest =>
    let next := addw (sh_w sp) (turn2 (sh_w sp) (sh_s1 sp) (nth 14 win 0) + nth 9 win 0 + turn2 (sh_w sp) (sh_s0 sp) (nth 1 win 0)) x in
    sha_rounds sp ks' (rest ++ [next]) (sha_round sp k x s)
  | _, _ => s
  end.
Definition sha_block (sp : shaspec) (s : shast) (b : bytes) : shast :=
  let r := sha_rounds sp (sh_k sp) (map of_bytes (cut (N.to_nat (sh_w sp / 8)) b)) s in
  let add := addw (sh_w sp) in
  mkSt (add (v_a s) (v_a r)) (add (v_b s) (v_b r)) (add (v_c s) (v_c r)) (add (v_d s) (v_d r))
       (add (v_e s) (v_e r)) (add (v_f s) (v_f r)) (add (v_g s) (v_g r)) (add (v_h s) (v_h r)).
(* 5.1: [bl] bytes a block, the length in [bl] / 8 bytes *)
Definition sha_pad (bl : N) (b : bytes) : bytes :=
  b ++ x80 :: zeros ((2 * bl - 1 - bl / 8 - blen b mod bl) mod bl) ++ be_bytes (N.to_nat (bl / 8)) (8 * blen b).
Definition sha_final (sp : shaspec) (b : bytes) : shast :=
  let bl := 2 * sh_w sp in
  let st := match sh_h sp with
    | [a; b; c; d; e; f; g; h] => mkSt a b c d e f g h | _ => mkSt 0 0 0 0 0 0 0 0 end in
  fold_left (sha_block sp) (cut (N.to_nat bl) (sha_pad bl b)) st.
Definition sha256 (b : bytes) : bytes :=
  let s := sha_final sha256_spec b in
  be_bytes 4 (v_a s) ++ be_bytes 4 (v_b s) ++ be_bytes 4 (v_c s) ++ be_bytes 4 (v_d s) ++
  be_bytes 4 (v_e s) ++ be_bytes 4 (v_f s) ++ be_bytes 4 (v_g s) ++ be_bytes 4 (v_h s).
Definition sha384 (b : bytes) : bytes :=
  let s := sha_final sha384_spec b in
  be_bytes 8 (v_a s) ++ be_bytes 8 (v_b s) ++ be_bytes 8 (v_c s) ++ be_bytes 8 (v_d s) ++ be_bytes 8 (v_e s) ++ be_bytes 8 (v_f s).
Definition sha (h : hashalg) (b : bytes) : bytes := match h with SHA256 => sha256 b | SHA384 => sha384 b end.
(* --- HMAC, RFC 2104 --------------------------------------------------------- *)
Definition block_size (h : hashalg) : N := match h with SHA256 => 64 | SHA384 => 128 end.
Definition hmac (h : hashalg) (k m : bytes) : bytes :=
  let k0 := if block_size h <? blen k then sha h k else k in
  let k1 := k0 ++ zeros (block_size h - blen k0) in
  let pad c := map (fun x => Nb (N.lxor (bN x) c)) k1 in
  sha h (pad 0x5c ++ sha h (pad 0x36 ++ m)).

(* --- streams: data and key stream, byte by byte ----------------------------- *)
Fixpoint xor_with (d ks : bytes) : bytes :=
  match d, ks with
  | x :: d', y :: ks' => Nb (N.lxor (bN x) (bN y)) :: xor_with d' ks'
  | _, _ => d
  end.
Fixpoint stream (f : N -> bytes) (i : N) (n : nat) : bytes :=
  match n with O => [] | S n' => f i ++ stream f (i + 1) n' end.
Definition pad16 (b : bytes) : bytes := b ++ zeros ((16 - blen b mod 16) mod 16).
Definition le_bytes (n : nat) (v : N) : bytes := rev (be_bytes n v).
Definition of_le (b : bytes) : N := of_bytes (rev b).

(* --- ChaCha20 and Poly1305, RFC 8439 ---------------------------------------- *)
Definition rotl32 (n x : N) : N := rotr 32 (32 - n) x.
Definition quarter (a b c d : N) : N * N * N * N :=
  let a := addw 32 a b in let d := rotl32 16 (N.lxor d a) in
  let c := addw 32 c d in let b := rotl32 12 (N.lxor b c) in
  let a := addw 32 a b in let d := rotl32 8 (N.lxor d a) in
  let c := addw 32 c d in let b := rotl32 7 (N.lxor b c) in (a, b, c, d).
Definition double_round (s : list N) : list N :=
  match s with
  | [y0; y1; y2; y3; y4; y5; y6; y7; y8; y9; y10; y11; y12; y13; y14; y15] =>
    let '(y0, y4, y8, y12) := quarter y0 y4 y8 y12 in
    let '(y1, y5, y9, y13) := quarter y1 y5 y9 y13 in
    let '(y2, y6, y10, y14) := quarter y2 y6 y10 y14 in
    let '(y3, y7, y11, y15) := quarter y3 y7 y11 y15 in
    let '(y0, y5, y10, y15) := quarter y0 y5 y10 y15 in
    let '(y1, y6, y11, y12) := quarter y1 y6 y11 y12 in
    let '(y2, y7, y8, y13) := quarter y2 y7 y8 y13 in
    let '(y3, y4, y9, y14) := quarter y3 y4 y9 y14 in
    [y0; y1; y2; y3; y4; y5; y6; y7; y8; y9; y10; y11; y12; y13; y14; y15]
  | _ => s
  end.
Definition chacha_block (key nonce : bytes) (counter : N) : bytes :=
  let s := [0x61707865; 0x3320646e; 0x79622d32; 0x6b206574] ++ map of_le (cut 4 key) ++ [counter] ++ map of_le (cut 4 nonce) in
  let r := Nat.iter 10 double_round s in
  flat_map (fun p => le_bytes 4 (addw 32 (fst p) (snd p))) (combine s r).
Definition poly_p : N := 2 ^ 130 - 5.
Definition poly1305 (key msg : bytes) : N :=
  let r := N.land (of_le (firstn 16 key)) 0x0ffffffc0ffffffc0ffffffc0fffffff in
  let acc := fold_left (fun a b => ((a + of_le b + 256 ^ blen b) * r) mod poly_p) (cut 16 msg) 0 in
  (acc + of_le (skipn 16 key)) mod 2 ^ 128.
Definition chacha_tag (key nonce ct aad : bytes) : bytes :=
  le_bytes 16 (poly1305 (firstn 32 (chacha_block key nonce 0)) (pad16 aad ++ pad16 ct ++ le_bytes 8 (blen aad) ++ le_bytes 8 (blen ct))).
Definition chacha_stream (key nonce : bytes) (n : N) : bytes := stream (chacha_block key nonce) 1 (N.to_nat ((n + 63) / 64)).

(* --- AES, FIPS 197 ---------------------------------------------------------- *)
Definition sbox : list N :=
  [0x63; 0x7c; 0x77; 0x7b; 0xf2; 0x6b; 0x6f; 0xc5; 0x30; 0x01; 0x67; 0x2b; 0xfe; 0xd7; 0xab; 0x76;
   0xca; 0x82; 0xc9; 0x7d; 0xfa; 0x59; 0x47; 0xf0; 0xad; 0xd4; 0xa2; 0xaf; 0x9c; 0xa4; 0x72; 0xc0;
   0xb7; 0xfd; 0x93; 0x26; 0x36; 0x3f; 0xf7; 0xcc; 0x34; 0xa5; 0xe5; 0xf1; 0x71; 0xd8; 0x31; 0x15;
   0x04; 0xc7; 0x23; 0xc3; 0x18; 0x96; 0x05; 0x9a; 0x07; 0x12; 0x80; 0xe2; 0xeb; 0x27; 0xb2; 0x75;
   0x09; 0x83; 0x2c; 0x1a; 0x1b; 0x6e; 0x5a; 0xa0; 0x52; 0x3b; 0xd6; 0xb3; 0x29; 0xe3; 0x2f; 0x84;
   0x53; 0xd1; 0x00; 0xed; 0x20; 0xfc; 0xb1; 0x5b; 0x6a; 0xcb; 0xbe; 0x39; 0x4a; 0x4c; 0x58; 0xcf;
   0xd0; 0xef; 0xaa; 0xfb; 0x43; 0x4d; 0x33; 0x85; 0x45; 0xf9; 0x02; 0x7f; 0x50; 0x3c; 0x9f; 0xa8;
   0x51; 0xa3; 0x40; 0x8f; 0x92; 0x9d; 0x38; 0xf5; 0xbc; 0xb6; 0xda; 0x21; 0x10; 0xff; 0xf3; 0xd2;
   0xcd; 0x0c; 0x13; 0xec; 0x5f; 0x97; 0x44; 0x17; 0xc4; 0xa7; 0x7e; 0x3d; 0x64; 0x5d; 0x19; 0x73;
   0x60; 0x81; 0x4f; 0xdc; 0x22; 0x2a; 0x90; 0x88; 0x46; 0xee; 0xb8; 0x14; 0xde; 0x5e; 0x0b; 0xdb;
   0xe0; 0x32; 0x3a; 0x0a; 0x49; 0x06; 0x24; 0x5c; 0xc2; 0xd3; 0xac; 0x62; 0x91; 0x95; 0xe4; 0x79;
   0xe7; 0xc8; 0x37; 0x6d; 0x8d; 0xd5; 0x4e; 0xa9; 0x6c; 0x56; 0xf4; 0xea; 0x65; 0x7a; 0xae; 0x08;
   0xba; 0x78; 0x25; 0x2e; 0x1c; 0xa6; 0xb4; 0xc6; 0xe8; 0xdd; 0x74; 0x1f; 0x4b; 0xbd; 0x8b; 0x8a;
   0x70; 0x3e; 0xb5; 0x66; 0x48; 0x03; 0xf6; 0x0e; 0x61; 0x35; 0x57; 0xb9; 0x86; 0xc1; 0x1d; 0x9e;
   0xe1; 0xf8; 0x98; 0x11; 0x69; 0xd9; 0x8e; 0x94; 0x9b; 0x1e; 0x87; 0xe9; 0xce; 0x55; 0x28; 0xdf;
   0x8c; 0xa1; 0x89; 0x0d; 0xbf; 0xe6; 0x42; 0x68; 0x41; 0x99; 0x2d; 0x0f; 0xb0; 0x54; 0xbb; 0x16].

Definition sub_byte (x : N) : N := nth (N.to_nat x) sbox 0.
Definition xtime (x : N) : N := let y := 2 * x in if y <? 256 then y else N.lxor (y - 256) 0x1b.
Definition xor_list (a b : list N) : list N := map (fun p => N.lxor (fst p) (snd p)) (combine a b).
Definition shift_rows (s : list N) : list N := map (fun i => nth i s 0) [0; 5; 10; 15; 4; 9; 14; 3; 8; 13; 2; 7; 12; 1; 6; 11]%nat.
Definition mix_column (c : list N) : list N :=
  match c with
  | [a; b; c; d] =>
    let m x y z t := N.lxor (N.lxor (xtime x) (N.lxor (xtime y) y)) (N.lxor z t) in
    [m a b c d; m b c d a; m c d a b; m d a b c]
  | _ => c
  end.
Definition mix_columns (s : list N) : list N :=
  mix_column (firstn 4 s) ++ mix_column (firstn 4 (skipn 4 s)) ++ mix_column (firstn 4 (skipn 8 s)) ++ mix_column (skipn 12 s).
(* the words of the key schedule, the last first *)
Fixpoint expand (nk n i : nat) (rcon : N) (r : list (list N)) : list (list N) :=
  match n with
  | O => r
  | S n' =>
    let prev := hd [] r in
    let turn := Nat.eqb (Nat.modulo i nk) 0 in
    let t := if turn then xor_list (map sub_byte (tl prev ++ firstn 1 prev)) [rcon; 0; 0; 0]
             else if (Nat.ltb 6 nk && Nat.eqb (Nat.modulo i nk) 4)%bool then map sub_byte prev else prev in
    expand nk n' (S i) (if turn then xtime rcon else rcon) (xor_list (nth (nk - 1) r []) t :: r)
  end.
Fixpoint group4 (l : list (list N)) : list (list N) :=
  match l with a :: b :: c :: d :: r => (a ++ b ++ c ++ d) :: group4 r | _ => [] end.
Definition round_keys (key : bytes) : list (list N) :=
  let nk := Nat.div (length key) 4 in
  group4 (rev (expand nk (4 * (nk + 7) - nk) nk 1 (rev (map (map bN) (cut 4 key))))).
Fixpoint aes_rounds (ks : list (list N)) (s : list N) : list N :=
  match ks with
  | [] => s
  | [k] => xor_list (shift_rows (map sub_byte s)) k
  | k :: ks' => aes_rounds ks' (xor_list (mix_columns (shift_rows (map sub_byte s))) k)
  end.
Definition aes (rk : list (list N)) (b : bytes) : bytes := map Nb (aes_rounds (tl rk) (xor_list (map bN b) (hd [] rk))).

(* --- GCM, NIST SP 800-38D, with nonces of 96 bits ---------------------------- *)
Fixpoint gmul (n : nat) (x v z : N) : N :=
  match n with
  | O => z
  | S n' => gmul n' x (if N.testbit v 0 then N.lxor (N.shiftr v 1) (N.shiftl 0xe1 120) else N.shiftr v 1)
                 (if N.testbit x (N.of_nat n') then N.lxor z v else z)
  end.
Definition ghash (h : N) (b : bytes) : N := fold_left (fun y x => gmul 128 (N.lxor y (of_bytes x)) h 0) (cut 16 b) 0.
Definition counter_block (rk : list (list N)) (nonce : bytes) (i : N) : bytes := aes rk (nonce ++ be_bytes 4 i).
Definition gcm_stream (key nonce : bytes) (n : N) : bytes :=
  let rk := round_keys key in stream (counter_block rk nonce) 2 (N.to_nat ((n + 15) / 16)).
Definition gcm_tag (key nonce ct aad : bytes) : bytes :=
  let rk := round_keys key in
  let h := of_bytes (aes rk (zeros 16)) in
  be_bytes 16 (N.lxor (ghash h (pad16 aad ++ pad16 ct ++ be_bytes 8 (8 * blen aad) ++ be_bytes 8 (8 * blen ct)))
                      (of_bytes (counter_block rk nonce 1))).

(* --- CCM, RFC 3610 ----------------------------------------------------------- *)
Definition ccm_counter (rk : list (list N)) (nonce : bytes) (i : N) : bytes :=
  let l := (15 - length nonce)%nat in aes rk (Nb (N.of_nat l - 1) :: nonce ++ be_bytes l i).
Definition ccm_stream (key nonce : bytes) (n : N) : bytes :=
  let rk := round_keys key in stream (ccm_counter rk nonce) 1 (N.to_nat ((n + 15) / 16)).
Definition ccm_tag (size : nat) (key nonce data aad : bytes) : bytes :=
  let rk := round_keys key in
  let l := (15 - length nonce)%nat in
  let b0 := Nb ((if is_nil aad then 0 else 64) + 8 * ((N.of_nat size - 2) / 2) + (N.of_nat l - 1)) :: nonce ++ be_bytes l (blen data) in
  let a := if is_nil aad then [] else pad16 (be_bytes 2 (blen aad) ++ aad) in
  let mac := fold_left (fun x b => aes rk (xor_with x b)) (cut 16 (b0 ++ a ++ pad16 data)) (zeros 16) in
  be_bytes size (N.shiftr (N.lxor (of_bytes mac) (of_bytes (ccm_counter rk nonce 0))) (8 * (16 - N.of_nat size))).

(* --- the ciphers of TLS 1.3 --------------------------------------------------- *)
Definition real_stream (suite : N) (key nonce : bytes) (n : N) : bytes :=
  if suite =? TLS_CHACHA20_POLY1305_SHA256 then chacha_stream key nonce n
  else if (suite =? TLS_AES_128_CCM_SHA256) || (suite =? TLS_AES_128_CCM_8_SHA256) then ccm_stream key nonce n
  else gcm_stream key nonce n.
Definition real_tag (suite : N) (key nonce data ct aad : bytes) : bytes :=
  if suite =? TLS_CHACHA20_POLY1305_SHA256 then chacha_tag key nonce ct aad
  else if suite =? TLS_AES_128_CCM_SHA256 then ccm_tag 16 key nonce data aad
  else if suite =? TLS_AES_128_CCM_8_SHA256 then ccm_tag 8 key nonce data aad
  else gcm_tag key nonce ct aad.
Definition real_seal (suite : N) (key nonce data aad : bytes) : bytes :=
  let ct := xor_with data (real_stream suite key nonce (blen data)) in
  ct ++ real_tag suite key nonce data ct aad.
Definition real_open (suite : N) (key nonce sealed aad : bytes) : option bytes :=
  let n := if suite =? TLS_AES_128_CCM_8_SHA256 then 8 else 16 in
  if blen sealed <? n then None
  else
    let ct := btake (blen sealed - n) sealed in
    let data := xor_with ct (real_stream suite key nonce (blen ct)) in
    if beqb (bdrop (blen sealed - n) sealed) (real_tag suite key nonce data ct aad) then Some data else None.

Definition real : crypto := {|
  cr_hash := sha; cr_hmac := hmac; cr_seal := real_seal; cr_open := real_open;
  cr_kx_pub := cr_kx_pub toy; cr_kx_shared := cr_kx_shared toy; cr_sign := cr_sign toy; cr_sig_verify := cr_sig_verify toy;
  cr_load_cert := cr_load_cert toy; cr_load_pubkey := cr_load_pubkey toy; cr_cert_pubkey := cr_cert_pubkey toy;
  cr_cert_pubkey_oid := cr_cert_pubkey_oid toy; cr_cert_sig_oid := cr_cert_sig_oid toy; cr_cert_hash_alg := cr_cert_hash_alg toy;
  cr_verify_chain := cr_verify_chain toy; cr_is_ip := cr_is_ip toy; cr_idna_decode := cr_idna_decode toy; cr_idna_encode := cr_idna_encode toy;
  cr_load_ocsp_req := cr_load_ocsp_req toy; cr_load_ocsp_res := cr_load_ocsp_res toy; cr_ocsp_url := cr_ocsp_url toy;
  cr_make_ocsp_req := cr_make_ocsp_req toy; cr_ocsp_fetch := cr_ocsp_fetch toy; cr_now := cr_now toy; cr_sig_args := cr_sig_args toy |}.
