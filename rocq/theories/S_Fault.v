(* Specification for C31: the errors that parsing may end with. *)
From Verif Require Import Base Iana Crypto.

(* an answer to malformed input: an alert other than internal_error *)
Definition polite (e : exn) : Prop := exists d, e = XAlert d /\ d < 256 /\ d <> INTERNAL_ERROR.

(* the other errors, per content type and, for a handshake message, its type
   (the first byte): KeyError, ValueError, TypeError and AttributeError, which
   the connection all turns into internal_error *)
Definition faults (ct : N) (data : bytes) : list exn :=
  if ct =? CT_INVALID then [XKey]                      (* no parser *)
  else if ct =? CT_HEARTBEAT then [XValue]             (* lengths *)
  else if ct =? CT_HANDSHAKE then
    match data with
    | [] => []
    | t :: _ =>
      if bN t =? MESSAGE_HASH then [XKey]              (* no parser *)
      else if bN t =? CLIENT_HELLO then [XValue; XType]     (* use_srtp, certificate_authorities *)
      else if bN t =? ENCRYPTED_EXTENSIONS then [XValue; XType]  (* use_srtp *)
      else if bN t =? CERTIFICATE_REQUEST then [XType] (* certificate_authorities *)
      else if bN t =? SERVER_HELLO then [XValue]       (* a version before TLS 1.3 *)
      else if bN t =? CERTIFICATE then [XAttr; XKey; XValue]  (* nothing negotiated yet, list too long *)
      else []
    end
  else [].

(* errors of the external decoders *)
Definition external (C : crypto) (ct : N) (data : bytes) (e : exn) : Prop :=
  ct = CT_HANDSHAKE /\ exists t rest, data = t :: rest /\
    ((bN t = CLIENT_HELLO /\ exists b, cr_idna_decode C b = Err e) \/
     (bN t = CERTIFICATE /\ exists b, cr_load_cert C b = Err e \/ cr_load_pubkey C b = Err e)).
