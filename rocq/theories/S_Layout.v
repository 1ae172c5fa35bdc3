(* Specifications for C32: the layout of messages on the wire (RFC 8446
   section 4), and what one extension of a block may be. *)
From Verif Require Import Base Iana Serial Crypto Ext Msg S_Codec.

(* opaque data<0..2^8n-1> *)
Definition vec (n : nat) (b : bytes) : bytes := be_bytes n (blen b) ++ b.
(* struct { ExtensionType; opaque extension_data<0..2^16-1> } *)
Definition tlv (i : N * bytes) : bytes := be_bytes 2 (fst i) ++ vec 2 (snd i).

(* [e] is what the extension of type and data [i] alone is read as, in message
   [hn], where its type is allowed *)
Definition item (C : crypto) (hn : hname) (i : N * bytes) (e : ext) : Prop :=
  ext_type e = fst i /\
  parse_ext C hn (stream_of (tlv i)) = Ok (e, mkStream (tlv i) (blen (tlv i)) []) /\
  match home e with
  | Some l => In hn l \/ (hn = NServerHello /\ ext_type e = COOKIE)
  | None => ~ In (ext_type e) (map fst rfc_places)
  end.
(* the extensions [exts] are those of the block [blk]: as many as there are
   different types, the last one when there are several of one type *)
Definition block (C : crypto) (hn : hname) (blk : bytes) (exts : list ext) : Prop :=
  exists items es,
    blk = concat (map tlv items) /\ Forall2 (item C hn) items es /\
    NoDup (map ext_type exts) /\
    forall e, In e exts <-> exists l1 l2, es = l1 ++ e :: l2 /\ ~ In (ext_type e) (map ext_type l2).

Definition entry_layout (C : crypto) (ct : N) (b : bytes) (e : centry) : Prop :=
  exists data blk, b = vec 3 data ++ vec 2 blk /\
    (if ct =? CT_X509 then cr_load_cert C data else cr_load_pubkey C data) = Ok (en_data e) /\
    block C NCertificate blk (en_exts e).
(* the body of a message *)
Definition layout (C : crypto) (pct : option (option N)) (h : hs) (b : bytes) : Prop :=
  match h with
  | HClientHello random sid suites exts => exists blk,
      b = [x03; x03] ++ random ++ vec 1 sid ++ vec 2 (concat (map (be_bytes 2) suites)) ++ vec 1 [x00] ++ vec 2 blk /\
      blen random = 32 /\ block C NClientHello blk exts
  | HServerHello hrr random sid suite exts => exists blk,
      b = [x03; x03] ++ random ++ vec 1 sid ++ be_bytes 2 suite ++ [x00] ++ vec 2 blk /\
      blen random = 32 /\ (hrr = true <-> random = hrr_random) /\
      block C (if hrr then NHelloRetry else NServerHello) blk exts
  | HEncExt exts => exists blk, b = vec 2 blk /\ block C NEncryptedExt blk exts
  | HCertReq ctx exts => exists blk, b = vec 1 ctx ++ vec 2 blk /\ block C NCertRequest blk exts
  | HCert ctx l => exists ct bs, pct = Some (Some ct) /\
      b = vec 1 ctx ++ vec 3 (concat bs) /\ Forall2 (entry_layout C ct) bs l
  | HCertVerify alg sig => b = be_bytes 2 alg ++ vec 2 sig
  | HFinished v => b = v
  | HNone => b = []
  end.
(* the extension lists of a message *)
Definition ext_lists (h : hs) : list (hname * list ext) :=
  match h with
  | HClientHello _ _ _ exts => [(NClientHello, exts)]
  | HServerHello hrr _ _ _ exts => [(if hrr then NHelloRetry else NServerHello, exts)]
  | HEncExt exts => [(NEncryptedExt, exts)]
  | HCertReq _ exts => [(NCertRequest, exts)]
  | HCert _ l => map (fun e => (NCertificate, en_exts e)) l
  | _ => []
  end.
