(* What goes on the wire, RFC 8446 section 5, independently of the model's
   sending code. *)
From Verif Require Import Base Iana Crypto Config Cipher Conn.

(* TLSPlaintext / TLSCiphertext framing *)
Definition record (ty : N) (fragment : bytes) : bytes :=
  Nb ty :: x03 :: x03 :: be_bytes 2 (blen fragment) ++ fragment.

(* [frags] is a way to cut [data] in pieces of at most [limit] bytes, none empty
   unless data itself is *)
Definition pieces (limit : N) (data : bytes) (frags : list bytes) : Prop :=
  concat frags = data /\ Forall (fun f => blen f <= limit) frags /\
  (Forall (fun f => f <> []) frags /\ frags <> [] \/ data = [] /\ frags = [[]]).

(* TLSInnerPlaintext: content, its type, zeros *)
Definition wraps (ct : N) (fragment inner : bytes) : Prop :=
  exists n, inner = fragment ++ Nb ct :: repeat x00 n.

(* the record that carries one sealing operation *)
Definition sealed_record (C : crypto) (suite : N) (s : sealing) : bytes :=
  record CT_APPDATA (cr_seal C suite (se_key s) (se_nonce s) (se_data s) (se_aad s)).

(* the record limit of the library in the current state *)
Definition limit_of (c : conn) : N :=
  match c_cipher c with
  | Some x => if must_encrypt x then max_frag c - (1 + tag_length (cs_suite x)) else max_frag c
  | None => max_frag c
  end.
(* RFC 8446 5.2, RFC 6066 4: what a peer must accept *)
Definition acceptable (mfl : N) (encrypted : bool) (payload : N) : Prop :=
  payload <= mfl + (if encrypted then 256 else 0).

(* a record of legal size on the wire: plaintext, or produced by the AEAD *)
Definition wire_record (C : crypto) (r : bytes) : Prop :=
  exists ty p, r = record ty p /\
    (blen p <= 16384 \/
     ty = CT_APPDATA /\ blen p <= 16384 + 4096 /\ blen p mod 512 = 0 /\
     exists suite s, p = cr_seal C suite (se_key s) (se_nonce s) (se_data s) (se_aad s)).
