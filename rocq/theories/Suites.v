(* crypto/signatures.py: how the three registries come to be.  Sig.v has their
   contents once the module is imported. *)
From Verif Require Import Base Iana Sig.

(* a Python dictionary, in the order of insertion *)
Fixpoint dget {V} (k : N) (d : list (N * V)) : option V :=
  match d with [] => None | (j, v) :: d' => if k =? j then Some v else dget k d' end.
Fixpoint dset {V} (k : N) (v : V) (d : list (N * V)) : list (N * V) :=
  match d with [] => [(k, v)] | (j, w) :: d' => if k =? j then (j, v) :: d' else (j, w) :: dset k v d' end.

(* a class statement: an identity for the class, whether TLSSignatureSuite is in
   its __bases__, and the attributes as found through its bases, if any.  A class
   that replaces _registry and its like by attributes of its own is left out. *)
Record klass := mkKlass { k_name : N; k_direct : bool; k_iana : option N; k_pubkey : option N; k_sign : option N }.
Record regs := mkRegs { r_pub : list (N * list (N * klass)); r_all : list (N * klass); r_sign : list (N * klass) }.

(* signatures.py:25-31 __init_subclass__, what it raises and what it leaves *)
Definition init_subclass (k : klass) (r : regs) : res unit * regs :=
  if negb (k_direct k) then (Ok tt, r)
  else match k_pubkey k with
  | None => (Err XAttr, r)
  | Some o =>
    (* setdefault *)
    let pub := match dget o (r_pub r) with Some _ => r_pub r | None => dset o [] (r_pub r) end in
    let inner := match dget o pub with Some d => d | None => [] end in
    match k_iana k with
    | None => (Err XAttr, mkRegs pub (r_all r) (r_sign r))
    | Some i =>
      let pub1 := dset o (dset i k inner) pub in
      let all1 := dset i k (r_all r) in
      match k_sign k with
      | None => (Err XAttr, mkRegs pub1 all1 (r_sign r))
      | Some s => (Ok tt, mkRegs pub1 all1 (dset s k (r_sign r)))
      end
    end
  end.
(* class statements, one after the other, exceptions caught *)
Definition declare_from (ks : list klass) (r : regs) : regs := fold_left (fun r k => snd (init_subclass k r)) ks r.
Definition declare (ks : list klass) : regs := declare_from ks (mkRegs [] [] []).

(* utils.py:15-17 RegistryMeta.__getitem__, signatures.py:33-39 *)
Definition or_key {A} (o : option A) : res A := match o with Some x => Ok x | None => Err XKey end.
Definition get_suite (i : N) (r : regs) : res klass := or_key (dget i (r_all r)).
Definition get_by_sign (o : N) (r : regs) : res klass := or_key (dget o (r_sign r)).
Definition get_by_pubkey (o : N) (r : regs) : res (list (N * klass)) := or_key (dget o (r_pub r)).

(* signatures.py:63-167, each class under the value of its iana_id *)
Definition suite (i p s : N) : klass := mkKlass i true (Some i) (Some p) (Some s).
Definition shipped : list klass :=
  [suite rsa_pkcs1_sha256 PK_RSAES_PKCS1 SO_RSA_SHA256; suite rsa_pkcs1_sha384 PK_RSAES_PKCS1 SO_RSA_SHA384;
   suite rsa_pkcs1_sha512 PK_RSAES_PKCS1 SO_RSA_SHA512;
   suite rsa_pss_rsae_sha256 PK_RSAES_PKCS1 SO_RSASSA_PSS; suite rsa_pss_rsae_sha384 PK_RSAES_PKCS1 SO_RSASSA_PSS;
   suite rsa_pss_rsae_sha512 PK_RSAES_PKCS1 SO_RSASSA_PSS;
   suite rsa_pss_pss_sha256 PK_RSASSA_PSS SO_RSASSA_PSS; suite rsa_pss_pss_sha384 PK_RSASSA_PSS SO_RSASSA_PSS;
   suite rsa_pss_pss_sha512 PK_RSASSA_PSS SO_RSASSA_PSS;
   suite ecdsa_secp256r1_sha256 PK_EC SO_ECDSA_SHA256; suite ecdsa_secp384r1_sha384 PK_EC SO_ECDSA_SHA384;
   suite ecdsa_secp521r1_sha512 PK_EC SO_ECDSA_SHA512;
   suite ed25519 PK_ED25519 SO_ED25519; suite ed448 PK_ED448 SO_ED448].
