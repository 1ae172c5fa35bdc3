(* ocsp_over_http.py used by several threads.  The module has no lock: between
   two operations on _cache or _cache_limits another thread may run.  One
   operation on a dict or on the heap is not interrupted (the interpreter
   switches threads between bytecodes, heapq is written in C and compares
   tuples of datetimes and bytes). *)
From Coq Require Import ZArith.
From Verif Require Import Base OcspCache.

(* the calls a thread makes *)
Inductive tcall :=
| TRequest (url : option bytes) (req : bytes)
| TCache (until : N) (req ocsp_res : bytes)
| TUncache (req : bytes).

(* the next operation of a thread *)
Inductive pc :=
| PIdle
| PGet (url : option bytes) (req : bytes)                          (* ocsp_over_http.py:20 *)
| PCheck (url : option bytes) (req ocsp_res : bytes) (until : N)   (* :21-24 *)
| PDel (url : option bytes) (req : bytes)                          (* :26 *)
| PFetch (url : option bytes) (req : bytes)                        (* :30-65 *)
| PIn (until : N) (req ocsp_res : bytes)                           (* :69 *)
| PLen (until : N) (req ocsp_res : bytes)                          (* :71 *)
| PPop (until : N) (req ocsp_res : bytes)                          (* :72 heappop *)
| PUn (victim : bytes) (until : N) (req ocsp_res : bytes)          (* :72 uncache, :78 *)
| PPush (until : N) (req ocsp_res : bytes)                         (* :73 *)
| PIns (until : N) (req ocsp_res : bytes)                          (* :74 *)
| PUncache (req : bytes).                                          (* :78 *)

Definition begin_call (c : tcall) : pc :=
  match c with
  | TRequest url req => PGet url req
  | TCache until req r => PIn until req r
  | TUncache req => PUncache req
  end.

(* what a call that ends returns: the answer of request, nothing else *)
Definition result := res (option bytes).
Inductive outcome := Goes (p : pc) | Ends (r : result).

(* one operation; [now] is what datetime.utcnow returns *)
Definition tstep (H : http) (now : N) (k : kstate) (p : pc) : kstate * outcome :=
  match p with
  | PIdle => (k, Goes PIdle)
  | PGet url req =>
    match assocB req (k_map k) with
    | Some (x :: r, until) => (k, Goes (PCheck url req (x :: r) until))
    | _ => (k, Goes (PFetch url req))
    end
  | PCheck url req r until => (k, if now <? until then Ends (Ok (Some r)) else Goes (PDel url req))
  | PDel url req =>
    match assocB req (k_map k) with
    | Some _ => (uncache req k, Goes (PFetch url req))
    | None => (k, Ends (Err XKey))
    end
  | PFetch url req => (k, Ends (let* a := fetch H url req in Ok (Some a)))
  | PIn until req r => (k, if opt_bool (assocB req (k_map k)) then Ends (Ok None) else Goes (PLen until req r))
  | PLen until req r => (k, if N.of_nat (length (k_heap k)) <? CACHE_ENTRIES then Goes (PPush until req r) else Goes (PPop until req r))
  | PPop until req r =>
    match k_heap k with
    | [] => (k, Ends (Err XIndex))
    | (_, v) :: h => (mkK (k_map k) h, Goes (PUn v until req r))
    end
  | PUn v until req r => (uncache v k, Goes (PLen until req r))
  | PPush until req r => (mkK (k_map k) (heappush (until, req) (k_heap k)), Goes (PIns until req r))
  | PIns until req r => (mkK ((req, (r, until)) :: delB req (k_map k)) (k_heap k), Ends (Ok None))
  | PUncache req => (uncache req k, Ends (Ok None))
  end.
