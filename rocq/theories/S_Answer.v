(* RFC 8446 4.2: extensions of a server answer those of the client. *)
From Verif Require Import Base Iana Crypto Ext Msg S_Auth.

(* the extensions of a message that are answers.  Those of a CertificateRequest
   are not, and a HelloRetryRequest may carry a cookie on its own *)
Definition responses (h : hs) : list N :=
  match h with
  | HServerHello hrr _ _ _ exts => filter (fun t => negb (hrr && (t =? COOKIE))) (map ext_type exts)
  | HEncExt exts => map ext_type exts
  | HCert _ entries => concat (map (fun e => map ext_type (en_exts e)) entries)
  | _ => []
  end.
Definition retry (h : hs) : Prop := exists random sid suite exts, h = HServerHello true random sid suite exts.
(* each message of the server answers extensions that the last ClientHello
   offered; [extra] tells what it may send besides.  The option is the offer
   that stands *)
Inductive answered (C : crypto) (extra : hs -> N -> Prop) : list hmsg -> option (list N) -> Prop :=
| answered_nil : answered C extra [] None
| answered_hello l o d random sid suites exts : answered C extra l o -> says C None d (HClientHello random sid suites exts) ->
    answered C extra (l ++ [(Client, CLIENT_HELLO, d)]) (Some (map ext_type exts))
| answered_other l o ty d : answered C extra l o -> ty <> CLIENT_HELLO -> answered C extra (l ++ [(Client, ty, d)]) o
| answered_reply l o h ty d : answered C extra l (Some o) -> msg_type h = Some ty -> ser_content C (KHandshake h) = Ok d ->
    (forall t, In t (responses h) -> In t o \/ extra h t) -> answered C extra (l ++ [(Server, ty, d)]) (Some o).
(* the one answer that a server gives unasked *)
Definition shares (h : hs) (t : N) : Prop := retry h /\ t = KEY_SHARE.
