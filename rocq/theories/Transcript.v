(* transcript.py *)
From Verif Require Import Base Iana Crypto Cipher.

(* transcript.py:54-67 ORDER: side, handshake type, skippable *)
Definition ORDER : list (side * N * bool) :=
  [(Server, SERVER_HELLO, false);
   (Client, CLIENT_HELLO, false);
   (Server, SERVER_HELLO, false);
   (Server, ENCRYPTED_EXTENSIONS, false);
   (Server, CERTIFICATE_REQUEST, true);
   (Server, CERTIFICATE, false);
   (Server, CERTIFICATE_VERIFY, false);
   (Server, FINISHED, false);
   (Client, END_OF_EARLY_DATA, true);
   (Client, CERTIFICATE, true);
   (Client, CERTIFICATE_VERIFY, true);
   (Client, FINISHED, false)].

(* self._hashes as (algorithm, everything fed to it); self._order_i *)
Record transcript := mkTr { t_hashes : list (hashalg * bytes); t_i : nat }.

(* transcript.py:71-76 with connection.py:36-39.  The argument is a set, so
   the order of the hashes is arbitrary when there are two: [flip] decides. *)
Definition tr_new (flip : bool) (suites : list N) : res transcript :=
  let* hs := fold_right (fun s acc =>
               let* l := acc in
               match suite_hash s with
               | Some h => Ok (if existsb (hashalg_eqb h) l then l else h :: l)
               | None => Err XKey
               end) (Ok []) suites in
  if is_nil hs then Err XValue
  else Ok (mkTr (map (fun h => (h, [])) (if flip then rev hs else hs)) 1).

(* transcript.py:78-85 *)
Definition tr_post_init (h : hashalg) (t : transcript) : res transcript :=
  match find (fun p => hashalg_eqb (fst p) h) (t_hashes t) with
  | None => Err XValue
  | Some p => Ok (mkTr [p] (t_i t))
  end.

(* transcript.py:95-101 *)
Definition message_hash (h : hashalg) (chash : bytes) : bytes :=
  [xfe; x00; x00; Nb (digest_size h)] ++ chash.
Definition tr_dance (sd : side) (chash : bytes) (t : transcript) : res transcript :=
  match t_hashes t with
  | [] => Err XIndex
  | (h, _) :: rest =>
    Ok (mkTr ((h, message_hash h chash) :: rest) (match sd with Client => 1 | Server => 0 end))
  end.

Definition slot_matches (sd : side) (ty : N) (slot : side * N * bool) : bool :=
  let '(s, t, _) := slot in side_eqb sd s && (ty =? t).

(* transcript.py:109-112: index reached by the while loop, and its slot *)
Fixpoint skip_slots (sd : side) (ty : N) (i : nat) (slots : list (side * N * bool))
  : res (nat * (side * N * bool)) :=
  match slots with
  | [] => Err XIndex
  | slot :: rest =>
    if snd slot && negb (slot_matches sd ty slot) then skip_slots sd ty (S i) rest
    else Ok (i, slot)
  end.

(* transcript.py:103-120; the index advanced by skipping persists on error *)
Definition tr_update (data : bytes) (sd : side) (ty : N) (t : transcript) : res unit * transcript :=
  if Nat.eqb (t_i t) (length ORDER) then (Ok tt, t)
  else match skip_slots sd ty (t_i t) (skipn (t_i t) ORDER) with
       | Err e => (Err e, t)
       | Ok (i, slot) =>
         if slot_matches sd ty slot
         then (Ok tt, mkTr (map (fun p => (fst p, snd p ++ data)) (t_hashes t)) (S i))
         else (Err (XAlert UNEXPECTED_MESSAGE), mkTr (t_hashes t) i)
       end.

(* transcript.py:122-123 *)
Definition tr_digest (C : crypto) (t : transcript) : res bytes :=
  match t_hashes t with
  | [] => Err XIndex
  | (h, d) :: _ => Ok (cr_hash C h d)
  end.
