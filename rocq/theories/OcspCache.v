(* ocsp_over_http.py: the OCSP-over-HTTP service and its cache. *)
From Coq Require Import ZArith.
From Verif Require Import Base.

(* ocsp_over_http.py:11-12 *)
Definition CACHE_ENTRIES : N := 64.
Definition OCSP_MAX_RESPONSE_SIZE : Z := 20480.

(* ocsp_over_http.py:16-17.  [k_map] is the dictionary _cache, request ->
   (response, until).  [k_heap] is the heap _cache_limits kept as a sorted
   list: heappop returns a least element, and equal elements are
   indistinguishable. *)
Record kstate := mkK { k_map : list (bytes * (bytes * N)); k_heap : list (N * bytes) }.
Definition k_empty : kstate := mkK [] [].

Fixpoint assocB {V} (k : bytes) (l : list (bytes * V)) : option V :=
  match l with
  | [] => None
  | (k', v) :: l' => if beqb k k' then Some v else assocB k l'
  end.
Definition delB {V} (k : bytes) (l : list (bytes * V)) : list (bytes * V) :=
  filter (fun p => negb (beqb k (fst p))) l.

(* bytes.__lt__ and tuple.__lt__ *)
Fixpoint blt (a b : bytes) : bool :=
  match a, b with
  | [], [] => false
  | [], _ :: _ => true
  | _ :: _, [] => false
  | x :: a', y :: b' => if bN x =? bN y then blt a' b' else bN x <? bN y
  end.
Definition limit_lt (x y : N * bytes) : bool :=
  if fst x =? fst y then blt (snd x) (snd y) else fst x <? fst y.

(* heapq.heappush *)
Fixpoint heappush (x : N * bytes) (h : list (N * bytes)) : list (N * bytes) :=
  match h with
  | [] => [x]
  | y :: h' => if limit_lt y x then y :: heappush x h' else x :: h
  end.

(* ocsp_over_http.py:77-78 *)
Definition uncache (req : bytes) (k : kstate) : kstate := mkK (delB req (k_map k)) (k_heap k).

(* ocsp_over_http.py:71-72 *)
Fixpoint evict (fuel : nat) (k : kstate) : res kstate :=
  if N.of_nat (length (k_heap k)) <? CACHE_ENTRIES then Ok k
  else match fuel with
       | O => Err XFuel
       | S fuel' =>
         match k_heap k with
         | [] => Err XIndex
         | (_, req) :: h => evict fuel' (uncache req (mkK (k_map k) h))
         end
       end.

(* ocsp_over_http.py:68-74 *)
Definition cache (until : N) (req ocsp_res : bytes) (k : kstate) : res kstate :=
  if opt_bool (assocB req (k_map k)) then Ok k
  else
    let* k1 := evict (length (k_heap k)) k in
    Ok (mkK ((req, (ocsp_res, until)) :: k_map k1) (heappush (until, req) (k_heap k1))).

(* what urlsplit (scheme, netloc) and urlopen do is outside *)
Record http_reply := mkReply {
  hr_type : option bytes;              (* Content-Type *)
  hr_length : option (res Z);          (* int(Content-Length) *)
  hr_read : Z -> bytes                 (* http_res.read(n) *)
}.
Record http := mkHttp {
  ht_split : option bytes -> res (bytes * bytes);
  ht_open : option bytes -> bytes -> res http_reply
}.

Definition ocsp_response_type : bytes := ascii_bytes "application/ocsp-response"%string.

(* ocsp_over_http.py:30-65 *)
Definition fetch (H : http) (url : option bytes) (req : bytes) : res bytes :=
  let* (scheme, netloc) := ht_split H url in
  if negb (beqb scheme (ascii_bytes "http"%string)) then Err XValue
  else if is_nil netloc then Err XValue
  else if is_nil req then Err XValue
  else
    let* r := ht_open H url req in
    let ty := match hr_type r with Some t => t | None => ocsp_response_type end in
    if negb (beqb ty ocsp_response_type) then Err XRuntime
    else
      let* len := match hr_length r with Some l => l | None => Ok OCSP_MAX_RESPONSE_SIZE end in
      if Z.ltb OCSP_MAX_RESPONSE_SIZE len then Err XRuntime
      else Ok (hr_read r len).

(* ocsp_over_http.py:19-65 *)
Definition request (H : http) (now : N) (url : option bytes) (req : bytes) (k : kstate)
  : res bytes * kstate :=
  match assocB req (k_map k) with
  | Some (x :: r, until) =>
    if now <? until then (Ok (x :: r), k)
    else (fetch H url req, uncache req k)
  | _ => (fetch H url req, k)
  end.
