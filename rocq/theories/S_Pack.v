(* RFC 8446 5.1, 5.2: what a stretch of records says. *)
From Verif Require Import Base Iana Crypto Config Cipher Conn S_Send S_Nonce.

(* the [i]-th record from now on opens to [inner] *)
Definition opens_at (C : crypto) (x : cs) (i : N) (p inner : bytes) : Prop :=
  forall k iv q, d_key (cs_r x) = Some k -> d_iv (cs_r x) = Some iv -> d_seq (cs_r x) = Some q ->
  cr_open C (cs_suite x) k (be_bytes 12 (N.lxor iv (q_next q + i))) p
    (Nb CT_APPDATA :: x03 :: x03 :: be_bytes 2 (blen p)) = Some inner.
(* and the limit of its key allows to open it *)
Definition left_at (x : cs) (i : N) : Prop :=
  exists lim, In (cs_suite x, lim) limit_table /\ forall q, d_seq (cs_r x) = Some q -> q_next q + i < lim.

(* to the connection [c] in its present state the bytes are records of these
   types and contents, in clear or protected; [i] of them were counted before *)
Inductive packed (C : crypto) (c : conn) : N -> list (N * bytes) -> bytes -> Prop :=
| packed_nil i : packed C c i [] []
| packed_clear i ct f l b : dec_on c = false -> ct < 256 -> ct <> CT_CCS -> blen f <= max_frag c ->
    packed C c (i + 1) l b -> packed C c i ((ct, f) :: l) (record ct f ++ b)
| packed_sealed i ct f l b x p inner : c_cipher c = Some x -> dec_on c = true -> left_at x i ->
    0 < ct < 256 -> ct <> CT_CCS -> blen p <= max_frag c + 256 -> opens_at C x i p inner -> wraps ct f inner ->
    packed C c (i + 1) l b -> packed C c i ((ct, f) :: l) (record CT_APPDATA p ++ b).

(* a whole handshake message: a byte for its type, three for its length *)
Definition whole (m : bytes) : Prop := exists ty body, m = ty :: be_bytes 3 (blen body) ++ body /\ blen body < 2 ^ 24.
(* the key and the initialisation vector that protect what is received *)
Definition reading_key (c : conn) : option (option bytes * option N) :=
  match c_cipher c with Some x => Some (d_key (cs_r x), d_iv (cs_r x)) | None => None end.
(* RFC 8446 4.6.1, 4.6.3: messages that an endpoint may send once it is connected *)
Definition message (ty : N) (body : bytes) : bytes := Nb ty :: be_bytes 3 (blen body) ++ body.
Definition new_session_ticket (lifetime age_add : N) (nonce ticket exts : bytes) : bytes :=
  message 4 (be_bytes 4 lifetime ++ be_bytes 4 age_add ++ be_bytes 1 (blen nonce) ++ nonce ++
             be_bytes 2 (blen ticket) ++ ticket ++ be_bytes 2 (blen exts) ++ exts).
Definition key_update (requested : bool) : bytes := message 24 [if requested then x01 else x00].
