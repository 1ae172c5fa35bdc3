(* C32: the extensions of a parsed message. *)
From Verif Require Import Base Iana Serial Crypto Ext Msg S_Codec S_Layout P_Layout Toy.

(* An accepted handshake message has the layout of RFC 8446, every length
   field included: the bytes are exactly those of its fields, and its
   extensions are those of its extension block, each read from its own data
   alone. *)
Theorem c32_layout : forall C pct data h,
  parse_content C pct CT_HANDSHAKE data = Ok (KHandshake h) ->
  exists ty b, data = be_bytes 1 ty ++ vec 3 b /\ blen b < 256 ^ 3 /\ layout C pct h b /\
    match msg_type h with Some t => ty = t | None => In ty [NEW_SESSION_TICKET; END_OF_EARLY_DATA; KEY_UPDATE] end.
Proof. exact layout_content. Qed.
Print Assumptions c32_layout.

(* At most one extension per type; each is allowed in the message by the RFC,
   or of a type the RFC does not know, but for a cookie in a ServerHello. *)
Theorem c32_allowed_partial : forall C pct data h hn exts,
  parse_content C pct CT_HANDSHAKE data = Ok (KHandshake h) -> In (hn, exts) (ext_lists h) ->
  NoDup (map ext_type exts) /\
  forall e, In e exts ->
    match home e with
    | Some l => In hn l \/ (hn = NServerHello /\ ext_type e = COOKIE)
    | None => ~ In (ext_type e) (map fst rfc_places)
    end.
Proof.
  intros C pct data h hn exts H I. destruct (layout_content C pct data h H) as (ty & b & _ & _ & L & _).
  exact (layout_places C pct h b hn exts L I).
Qed.
Print Assumptions c32_allowed_partial.

(* RFC 8446 does not allow a cookie in a ServerHello: the full claim is false. *)
Definition c32_hello : bytes :=
  [x02; x00; x00; x2f; x03; x03] ++ be_bytes 32 7 ++ [x00; x13; x01; x00; x00; x07; x00; x2c; x00; x03; x00; x01; x2a].
Theorem c32_allowed_refuted : exists data h exts e,
  parse_content toy None CT_HANDSHAKE data = Ok (KHandshake h) /\ In (NServerHello, exts) (ext_lists h) /\ In e exts /\
  ~ rfc_allows (ext_type e) NServerHello.
Proof.
  exists c32_hello. eexists. eexists. exists (ECookie [x2a]).
  split; [vm_compute; reflexivity|]. split; [left; reflexivity|]. split; [left; reflexivity|].
  intro H. specialize (H [NClientHello; NHelloRetry]). cbn in H. destruct H as [H|[H|H]]; [|discriminate H..|exact H].
  repeat (first [left; reflexivity | right]).
Qed.
Print Assumptions c32_allowed_refuted.

(* the table agrees with where the objects may stand *)
Theorem c32_table : forall e l, home e = Some l -> forall h, In h l -> rfc_allows (ext_type e) h.
Proof.
  intros e l H h I p Hp. destruct e; try discriminate H; injection H; intros <-; cbn [In] in I;
  cbn [rfc_places In] in Hp;
  repeat (destruct Hp as [Hp|Hp]; [first [discriminate Hp | injection Hp; intros <-; cbn [In]; tauto]|]); destruct Hp.
Qed.
Print Assumptions c32_table.

(* a ClientHello with two equal and one unknown extension *)
Definition c32_ch : bytes :=
  [x01; x00; x00; x3c; x03; x03] ++ be_bytes 32 7 ++ [x00; x00; x02; x13; x01; x01; x00; x00; x11;
     x00; x2d; x00; x02; x01; x01; x12; x34; x00; x01; x2a; x00; x2d; x00; x02; x01; x01].
Example c32_ex : parse_content toy None CT_HANDSHAKE c32_ch =
  Ok (KHandshake (HClientHello (be_bytes 32 7) [] [TLS_AES_128_GCM_SHA256] [EPskModes [1]; EUnknown 4660 [x2a]])).
Proof. vm_compute. reflexivity. Qed.
