(* Alert.parse and the processing of a received alert with the registry of the
   alert classes, which is shared by all the connections of a process and gets
   a class whenever an alert of unknown description is parsed. *)
From Verif Require Import Base Serial Iana Ext Msg.

(* A class: alerts.py:62-64 its level and description, whether the description is
   a member of AlertDescription (or an int), whether it derives from
   TLSFatalAlert. *)
Record aclass := mkAClass { a_level : N; a_desc : N; a_member : bool; a_fatal : bool }.
(* alerts.py:15 Alert._registry, a dictionary: the members of the enum and the
   ints with the same value are the same key (iana.py:8 Hex1Enum is an IntEnum) *)
Definition areg := list (N * aclass).
Fixpoint a_get (d : N) (g : areg) : option aclass :=
  match g with [] => None | (k, v) :: g' => if d =? k then Some v else a_get d g' end.
Fixpoint a_set (d : N) (v : aclass) (g : areg) : areg :=
  match g with
  | [] => [(d, v)]
  | (k, w) :: g' => if d =? k then (k, v) :: g' else (k, w) :: a_set d v g'
  end.
(* alerts.py:58-61 __init_subclass__ *)
Definition a_register (c : aclass) (g : areg) : areg := a_set (a_desc c) c g.

(* alerts.py:97-360 the class statements of the module, in order *)
Definition a_module : list aclass :=
  let fatal d := mkAClass FATAL d true true in
  [mkAClass WARNING CLOSE_NOTIFY true false] ++
  map fatal [10; 20; 22; 40; 42; 43; 44; 45; 46; 47; 48; 49; 50; 51; 70; 71; 80; 86] ++
  [mkAClass WARNING USER_CANCELED true false] ++
  map fatal [109; 110; 112; 113; 115; 116; 120].
Definition a_import : areg := fold_left (fun g c => a_register c g) a_module [].

(* an instance: its class and its own level (alerts.py:63-66) *)
Record alert := mkAlert { al_class : aclass; al_level : N }.
(* alerts.py:68-86 *)
Definition parse_alert_reg (s : stream) (g : areg) : res (alert * stream) * areg :=
  match read_enum 1 [WARNING; FATAL] ILLEGAL_PARAMETER s with
  | Err e => (Err e, g)
  | Ok (level, s1) =>
    match read_int 1 s1 with
    | Err e => (Err e, g)
    | Ok (d, s2) =>
      if memN d alert_descriptions then
        match a_get d g with
        | Some c => (Ok (mkAlert c level, s2), g)
        | None => (Err XKey, g)                       (* utils.py:16-17 *)
        end
      else
        let c := mkAClass level d false false in
        (Ok (mkAlert c level, s2), a_register c g)
    end
  end.

(* states/__init__.py:36-46.  What the state does with an alert: it is closed,
   the alert is ignored, or something is raised *)
Inductive verdict := VClosed | VIgnored | VRaised (e : exn).
Definition process_alert_reg (a : alert) (g : areg) : verdict :=
  if a_desc (al_class a) =? CLOSE_NOTIFY then VClosed
  else if al_level a =? WARNING then
    if a_member (al_class a) then VIgnored else VRaised XAttr   (* :43 description.name *)
  else
    match a_get (a_desc (al_class a)) g with
    | None => VRaised XKey
    | Some c => if a_fatal c then VRaised (XAlert (a_desc c))
                else VRaised XType                    (* :46 not an exception *)
    end.
