(* C87: what is asked of whom *)
From Verif Require Import Base Crypto Config Ext Msg Iana Ocsp Conn Aia.

(* the first description of the responder *)
Definition responder (l : list adesc) (u : bytes) : Prop :=
  exists a d b, l = a ++ d :: b /\ ad_method d = 1 /\ ad_location d = u /\ Forall (fun x => ad_method x <> 1) a.
Definition no_responder (l : list adesc) : Prop := Forall (fun x => ad_method x <> 1) l.

(* an answer about [subject] that its issuer vouches for *)
Definition vouched (C : crypto) (subject issuer der : bytes) : Prop :=
  exists req until, cr_make_ocsp_req C subject issuer = Ok req /\ validate_ocsp C issuer req der = Ok until.
(* an answer that the responder at [u] gives *)
Definition answers (C : crypto) (u subject issuer der : bytes) : Prop :=
  exists req, cr_make_ocsp_req C subject issuer = Ok req /\ cr_ocsp_fetch C (Some u) req = Ok der.

(* when a client is content with the status of a certificate *)
Definition content_with (C : crypto) (aia : bytes -> option (list adesc)) (service : bool) (e i : centry) : Prop :=
  match ext_get STATUS_REQUEST (en_exts e) with
  | Some (EOcspStatus der) => vouched C (en_data e) (en_data i) der
  | _ => service = false \/ exists l, aia (en_data e) = Some l /\
      (no_responder l \/ responder l [] \/
       exists u der, responder l u /\ answers C u (en_data e) (en_data i) der /\ vouched C (en_data e) (en_data i) der)
  end.
Definition neighbours (l : list centry) (e i : centry) : Prop := exists pre post, l = pre ++ e :: i :: post.
