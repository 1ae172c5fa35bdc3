(* Histories of the OCSP cache. *)
From Coq Require Import ZArith.
From Verif Require Import Base OcspCache.

(* the calls made on the service; a request comes with the clock it reads *)
Inductive kop :=
| KRequest (H : http) (now : N) (url : option bytes) (req : bytes)
| KCache (until : N) (req ocsp_res : bytes)
| KUncache (req : bytes).
Definition kstep (o : kop) (k : kstate) : res kstate :=
  match o with
  | KRequest H now url req => Ok (snd (request H now url req k))
  | KCache until req r => cache until req r k
  | KUncache req => Ok (uncache req k)
  end.
Fixpoint krun (ops : list kop) (k : kstate) : res kstate :=
  match ops with
  | [] => Ok k
  | o :: l => let* k1 := kstep o k in krun l k1
  end.

(* how many requests have an answer in the cache *)
Definition entries (k : kstate) : nat := length (k_map k).
(* [r], valid until [until], was given for [req] and not withdrawn since *)
Definition given (ops : list kop) (req r : bytes) (until : N) : Prop :=
  exists pre post, ops = pre ++ KCache until req r :: post /\ ~ In (KUncache req) post.
(* [r] was read from the network *)
Definition downloaded (H : http) (url : option bytes) (req r : bytes) : Prop :=
  exists reply n, ht_open H url req = Ok reply /\ r = hr_read reply n.
