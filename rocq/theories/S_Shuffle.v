(* C85: messages whose extensions are listed in another order *)
From Coq Require Export Permutation.
From Verif Require Import Base Iana Serial Crypto Ext Msg S_Codec S_Layout.

(* RFC 8446 section 4: what precedes the extensions of a message *)
Inductive raw :=
| RClientHello (random sid : bytes) (suites : list N)
| RServerHello (random sid : bytes) (suite : N)
| REncExt
| RCertReq (ctx : bytes).
Definition kind (r : raw) : N :=
  match r with RClientHello _ _ _ => 1 | RServerHello _ _ _ => 2 | REncExt => 8 | RCertReq _ => 13 end.
Definition head (r : raw) : bytes :=
  match r with
  | RClientHello random sid suites => [x03; x03] ++ random ++ vec 1 sid ++ vec 2 (concat (map (be_bytes 2) suites)) ++ vec 1 [x00]
  | RServerHello random sid suite => [x03; x03] ++ random ++ vec 1 sid ++ be_bytes 2 suite ++ [x00]
  | REncExt => []
  | RCertReq ctx => vec 1 ctx
  end.
Definition fits (r : raw) : Prop :=
  match r with
  | RClientHello random sid suites => blen random = 32 /\ blen sid < 256 /\ Forall (fun s => s < 65536) suites /\ 2 * N.of_nat (length suites) < 65536
  | RServerHello random sid suite => blen random = 32 /\ blen sid < 256 /\ suite < 65536
  | REncExt => True
  | RCertReq ctx => blen ctx < 256
  end.
(* the extensions as types and data *)
Definition blk (items : list (N * bytes)) : bytes := concat (map tlv items).
Definition small (items : list (N * bytes)) : Prop :=
  Forall (fun i => fst i < 65536 /\ blen (snd i) < 65536) items /\ blen (blk items) < 65536.
Definition wire (r : raw) (items : list (N * bytes)) : bytes := be_bytes 1 (kind r) ++ vec 3 (head r ++ vec 2 (blk items)).

(* the same message but for the order *)
Definition entry_reordered (e e' : centry) : Prop :=
  en_type e = en_type e' /\ en_data e = en_data e' /\ NoDup (map ext_type (en_exts e)) /\ Permutation (en_exts e) (en_exts e').
Inductive reordered : hs -> hs -> Prop :=
| ro_ch random sid suites a b : NoDup (map ext_type a) -> Permutation a b -> reordered (HClientHello random sid suites a) (HClientHello random sid suites b)
| ro_sh hrr random sid suite a b : NoDup (map ext_type a) -> Permutation a b -> reordered (HServerHello hrr random sid suite a) (HServerHello hrr random sid suite b)
| ro_ee a b : NoDup (map ext_type a) -> Permutation a b -> reordered (HEncExt a) (HEncExt b)
| ro_cr ctx a b : NoDup (map ext_type a) -> Permutation a b -> reordered (HCertReq ctx a) (HCertReq ctx b)
| ro_cert ctx l l' : Forall2 entry_reordered l l' -> reordered (HCert ctx l) (HCert ctx l').
