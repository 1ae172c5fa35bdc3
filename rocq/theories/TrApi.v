(* transcript.py: every method of a Transcript, in the hands of any caller *)
From Verif Require Import Base Iana Crypto Cipher KeyLog Transcript.

Inductive tcall :=
| TUpdate (data : bytes) (sd : side) (ty : N)
| TPost (h : hashalg)
| TDance (sd : side) (chash : bytes)
| TDigest
| THex
| TClone.
Inductive tret := RNone | RBytes (b : bytes).

(* one call: what it returns or raises, and the object after it.
   update 103-120, post_init 78-85, do_hrr_dance 87-101, digest 122-123 are the
   functions of Transcript.v; hexdigest 125-126; clone 128-129 asks the hash
   for a method close() that hashes of hashlib do not have.  A digestmod is
   named by its algorithm; the argument [side] is 'client' or 'server'. *)
Definition tcall_step (C : crypto) (o : tcall) (t : transcript) : res tret * transcript :=
  match o with
  | TUpdate data sd ty => let (r, t1) := tr_update data sd ty t in ((let* _ := r in Ok RNone), t1)
  | TPost h => match tr_post_init h t with Ok t1 => (Ok RNone, t1) | Err e => (Err e, t) end
  | TDance sd chash => match tr_dance sd chash t with Ok t1 => (Ok RNone, t1) | Err e => (Err e, t) end
  | TDigest => ((let* d := tr_digest C t in Ok (RBytes d)), t)
  | THex => ((let* d := tr_digest C t in Ok (RBytes (hex d))), t)
  | TClone => (match t_hashes t with [] => Err XIndex | _ => Err XAttr end, t)
  end.

(* a history of calls, an exception being caught by the caller *)
Fixpoint trun (C : crypto) (l : list tcall) (t : transcript) : list (res tret) * transcript :=
  match l with
  | [] => ([], t)
  | o :: l' => let (r, t1) := tcall_step C o t in let (rs, t2) := trun C l' t1 in (r :: rs, t2)
  end.
