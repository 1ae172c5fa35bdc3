(* RFC 6960 appendix A: an OCSP exchange over HTTP. *)
From Coq Require Import ZArith String.
From Verif Require Import Base OcspCache.

(* a URL that may be asked and something to ask *)
Definition askable (H : http) (url : option bytes) (req : bytes) : Prop :=
  exists netloc, ht_split H url = Ok (ascii_bytes "http"%string, netloc) /\ netloc <> [] /\ req <> [].
(* the answer [r] of the responder *)
Definition answers (H : http) (url : option bytes) (req r : bytes) : Prop :=
  exists reply n, ht_open H url req = Ok reply /\ r = hr_read reply n /\ (n <= 20480)%Z /\
    (hr_type reply = None \/ hr_type reply = Some (ascii_bytes "application/ocsp-response"%string)) /\
    match hr_length reply with Some l => l = Ok n | None => n = 20480%Z end.

(* RFC 9110 section 8.3.1: the names of a media type are case-insensitive *)
Definition lower (x : byte) : byte := if (65 <=? bN x) && (bN x <=? 90) then Nb (bN x + 32) else x.
Definition ocsp_media (t : bytes) : Prop := map lower t = ascii_bytes "application/ocsp-response"%string.
