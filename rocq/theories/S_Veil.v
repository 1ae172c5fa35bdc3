(* What an observer of the network learns about the application data. *)
From Verif Require Import Base Iana Crypto Config Cipher Conn S_Hist S_Conn S_Send.

(* What a connection puts on the network is made of parts: bytes in clear, and
   records whose content was sealed.  [Kept] is a sealing whose record never
   left, because the call raised before. *)
Inductive part := Clear (b : bytes) | Sealed (s : sealing) | Kept (s : sealing).
Definition shown (C : crypto) (p : part) : bytes :=
  match p with Clear b => b | Sealed s => sealed_record C (se_suite s) s | Kept _ => [] end.
Definition wire (C : crypto) (ps : list part) : bytes := concat (map (shown C) ps).
Definition sealings (ps : list part) : list sealing :=
  flat_map (fun p => match p with Clear _ => [] | Sealed s | Kept s => [s] end) ps.

(* two sealings that only differ in the text that they protect, of one length *)
Definition veiled (s s' : sealing) : Prop :=
  se_suite s = se_suite s' /\ se_epoch s = se_epoch s' /\ se_key s = se_key s' /\
  se_nonce s = se_nonce s' /\ se_aad s = se_aad s' /\ blen (se_data s) = blen (se_data s').
Definition same_look (p p' : part) : Prop :=
  match p, p' with
  | Clear b, Clear b' => b = b'
  | Sealed s, Sealed s' => veiled s s'
  | Kept s, Kept s' => veiled s s'
  | _, _ => False
  end.

(* Lengths that look the same: [n] bytes are cut in records of [l] bytes, all
   full but the last one, and that one is padded: only how many blocks it fills
   is visible. *)
Definition records (l n : N) : N := if n <=? l then 1 else (n + l - 1) / l.
Definition last_record (l n : N) : N := n - (records l n - 1) * l.
Definition blocks (m t n : N) : N := (n + 1 + t) / N.min m 4096.
Definition same_shape (m t n n' : N) : Prop :=
  let l := m - (1 + t) in
  records l n = records l n' /\ blocks m t (last_record l n) = blocks m t (last_record l n').

(* two histories that differ only in what is written once there are keys *)
Fixpoint same_but_text (C : crypto) (c : conn) (ops ops' : list op) : Prop :=
  match ops, ops' with
  | [], [] => True
  | o :: l, o' :: l' =>
    (o = o' \/ exists d d' x k, o = OSend d /\ o' = OSend d' /\
       c_cipher c = Some x /\ d_key (cs_w x) = Some k /\
       same_shape (max_frag c) (tag_length (cs_suite x)) (blen d) (blen d')) /\
    same_but_text C (after C o c) l l'
  | _, _ => False
  end.

(* how the calls ended, all of them, or all but the data_to_send ones *)
Fixpoint outcomes (C : crypto) (ops : list op) (c : conn) : list (res bytes) :=
  match ops with
  | [] => []
  | o :: l => fst (step C o c) :: outcomes C l (after C o c)
  end.
Fixpoint answers (C : crypto) (ops : list op) (c : conn) : list (res bytes) :=
  match ops with
  | [] => []
  | o :: l => (match o with OFlush => [] | _ => [fst (step C o c)] end) ++ answers C l (after C o c)
  end.

(* encryption that hides the text but not its length *)
Definition hiding (C : crypto) : Prop := forall suite key nonce d d' aad,
  blen d = blen d' -> cr_seal C suite key nonce d aad = cr_seal C suite key nonce d' aad.
