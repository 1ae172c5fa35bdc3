From Coq Require Import ZArith.
From Verif Require Import Base OcspCache S_Cache S_Fetch P_Fetch.

(* C93.  Full statement: every answer of the media type is taken.  Taken are
   exactly those whose type is absent or written in lower case. *)
Theorem c93_taken_partial H url req r : fetch H url req = Ok r <-> askable H url req /\ answers H url req r.
Proof. exact (fetch_exact H url req r). Qed.
Print Assumptions c93_taken_partial.
(* without a URL of HTTP or without a request the network is not used *)
Theorem c93_quiet H url req net : ~ askable H url req ->
  fetch (mkHttp (ht_split H) net) url req = fetch H url req /\ exists e, fetch H url req = Err e.
Proof. exact (fetch_quiet H url req net). Qed.
Print Assumptions c93_quiet.
(* nor is it for what is in the cache *)
Theorem c93_cached H1 H2 now url1 url2 q k r until : assocB q (k_map k) = Some (r, until) -> r <> [] -> now < until ->
  request H1 now url1 q k = request H2 now url2 q k.
Proof. exact (cached_quiet H1 H2 now url1 url2 q k r until). Qed.
Print Assumptions c93_cached.
(* forgetting an answer leaves the others *)
Theorem c93_others H now url q x k : x <> q -> fst (request H now url x (uncache q k)) = fst (request H now url x k).
Proof. exact (others_kept H now url q x k). Qed.
Print Assumptions c93_others.

Definition c93_net (scheme type : bytes) : http := mkHttp (fun _ => Ok (scheme, [x61]))
  (fun _ q => Ok (mkReply (Some type) (Some (Ok 2%Z)) (fun n => firstn (Z.to_nat n) (q ++ [x01; x02; x03])))).
Definition c93_type : bytes := ascii_bytes "application/ocsp-response"%string.
Example c93_case : fetch (c93_net (ascii_bytes "http"%string) c93_type) None [x07] = Ok [x07; x01] /\
  fetch (c93_net (ascii_bytes "http"%string) (ascii_bytes "text/html"%string)) None [x07] = Err XRuntime /\
  ~ askable (c93_net (ascii_bytes "ldap"%string) c93_type) None [x07] /\
  fst (request (c93_net (ascii_bytes "ldap"%string) c93_type) 1 None [x07] (uncache [x08] (mkK [([x08], ([x01], 9)); ([x07], ([x05], 9))] []))) = Ok [x05].
Proof.
  split; [vm_compute; reflexivity|]. split; [vm_compute; reflexivity|]. split; [|vm_compute; reflexivity].
  intros (n & E & _). vm_compute in E. discriminate E.
Qed.
(* an answer of the right media type, in other letters *)
Theorem c93_type_refuted : exists H url req reply t, askable H url req /\ ht_open H url req = Ok reply /\
  hr_type reply = Some t /\ ocsp_media t /\ hr_length reply = Some (Ok 2%Z) /\ fetch H url req = Err XRuntime.
Proof.
  exists (c93_net (ascii_bytes "http"%string) (ascii_bytes "application/OCSP-response"%string)), None, [x07]. eexists _, _.
  split; [exists [x61]; split; [reflexivity|]; split; discriminate|]. split; [reflexivity|]. split; [reflexivity|].
  split; [vm_compute; reflexivity|]. split; [reflexivity | vm_compute; reflexivity].
Qed.
Print Assumptions c93_type_refuted.
