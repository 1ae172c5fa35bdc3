(* configuration.py: the object that holds the negotiated parameters, its
   freeze method and what it does to assignments.  Conn.v has its values only. *)
From Coq Require Import String.
From Verif Require Import Base.
Local Open Scope list_scope.

(* a Python value: None, Ellipsis, a bool, or any other with its truth *)
Inductive pval := PNone | PEllipsis | PBool (b : bool) | PObj (truth : bool) (n : N).
Definition truth (v : pval) : bool :=
  match v with PNone => false | PEllipsis => true | PBool b => b | PObj t _ => t end.

(* the __dict__ of the instance, in the order of insertion.  The class has no
   attribute of these names.  Names with a meaning of their own for Python
   (__dict__, __class__, ...) are left out. *)
Definition dict := list (string * pval).
Fixpoint lookup (n : string) (d : dict) : option pval :=
  match d with [] => None | (k, v) :: d' => if String.eqb n k then Some v else lookup n d' end.
(* object.__setattr__ *)
Fixpoint store (n : string) (v : pval) (d : dict) : dict :=
  match d with
  | [] => [(n, v)]
  | (k, w) :: d' => if String.eqb n k then (k, v) :: d' else (k, w) :: store n v d'
  end.
(* object.__delattr__ *)
Fixpoint unset (n : string) (d : dict) : res dict :=
  match d with
  | [] => Err XAttr
  | (k, w) :: d' => if String.eqb n k then Ok d' else let* r := unset n d' in Ok ((k, w) :: r)
  end.

Definition frozen_name : string := "_frozen".
(* if self._frozen: raise TypeError *)
Definition unless_frozen {A} (d : dict) (r : res A) : res A :=
  match lookup frozen_name d with
  | None => Err XAttr
  | Some f => if truth f then Err XType else r
  end.
(* configuration.py:184-188, 190-194, 181-182 *)
Definition nc_set (n : string) (v : pval) (d : dict) : res dict := unless_frozen d (Ok (store n v d)).
Definition nc_del (n : string) (d : dict) : res dict := unless_frozen d (unset n d).
Definition nc_freeze (d : dict) : res dict := nc_set frozen_name (PBool true) d.

(* configuration.py:166-179 __init__ *)
Definition nc_names : list (string * pval) :=
  [("cipher_suite", PNone); ("key_exchange", PNone); ("signature_algorithm", PNone); ("alpn", PEllipsis);
   ("can_send_heartbeat", PNone); ("can_echo_heartbeat", PNone); ("max_fragment_length", PNone);
   ("client_certificate_type", PNone); ("server_certificate_type", PNone); ("peer_want_ocsp_stapling", PNone);
   ("peer_certificate", PNone); ("peer_public_key", PNone)]%string.
Fixpoint set_all (l : list (string * pval)) (d : dict) : res dict :=
  match l with [] => Ok d | (n, v) :: l' => let* d1 := nc_set n v d in set_all l' d1 end.
Definition nc_new : res dict := set_all nc_names (store frozen_name (PBool false) []).

(* what code may do to the object; an exception changes nothing *)
Inductive fop := FSet (n : string) (v : pval) | FDel (n : string) | FFreeze.
Definition fstep (o : fop) (d : dict) : res dict :=
  match o with FSet n v => nc_set n v d | FDel n => nc_del n d | FFreeze => nc_freeze d end.
Definition fnext (o : fop) (d : dict) : dict := match fstep o d with Ok d1 => d1 | Err _ => d end.
Definition frun (l : list fop) (d : dict) : dict := fold_left (fun d o => fnext o d) l d.
(* what each raised *)
Fixpoint fouts (l : list fop) (d : dict) : list (option exn) :=
  match l with
  | [] => []
  | o :: l' => match fstep o d with Ok _ => None | Err e => Some e end :: fouts l' (fnext o d)
  end.
