(* Extension.parse and the registry of the extension classes, which is shared by
   all the connections of a process and grows while it runs. *)
From Verif Require Import Base Serial Iana Crypto Ext.

(* A class made by extensions/__init__.py:88-92 for a type that had none: which
   object it is, and its extension_type. *)
Record made := mkMade { m_id : N; m_type : N }.
(* extensions/__init__.py:24 _extension_registry.  The classes of the package are
   [registry] of Ext; [g_made] has the keys that were added since, each with
   what the inner dictionary has for HandshakeType_.ANY (nothing between :64 and
   :67).  [g_next]: the identity of the next class. *)
Record reg := mkReg { g_made : list (N * option made); g_next : N }.
Definition g_empty : reg := mkReg [] 0.
Fixpoint g_get (ty : N) (l : list (N * option made)) : option (option made) :=
  match l with [] => None | (t, v) :: l' => if ty =? t then Some v else g_get ty l' end.
Fixpoint g_set (ty : N) (v : option made) (l : list (N * option made)) : list (N * option made) :=
  match l with [] => [] | (t, w) :: l' => if ty =? t then (t, v) :: l' else (t, w) :: g_set ty v l' end.

(* extensions/__init__.py:94-96, for a class of the package and for one that was
   made (:121-123, whose instances have the extension_type of their class) *)
Definition parse_known (C : crypto) (ty : N) (c : ecls) (s : stream) : res (ext * stream) :=
  let* (len, s2) := read_int 2 s in
  with_limit len (fun _ => parse_ext_body C ty c) s2.
Definition parse_made (C : crypto) (m : made) (s : stream) : res (ext * stream) :=
  parse_known C (m_type m) CUnknownExt s.

(* the next operation of a thread on the registry *)
Inductive rpc :=
| RIdle
| RGet (h : hname) (ty : N) (s : stream)      (* :79 _extension_registry.get *)
| RTruth (ty : N) (s : stream)                (* :79 is it empty? *)
| RAny (ty : N) (s : stream)                  (* :81 registry.get(ANY) *)
| ROuter (ty : N) (s : stream)                (* :88-92 and :64 setdefault *)
| RInner (m : made) (ty : N) (s : stream).    (* :67-68 setdefault *)
Inductive routcome := RGoes (p : rpc) | REnds (r : res (ext * stream)).

(* extensions/__init__.py:77 *)
Definition rbegin (h : hname) (s : stream) : routcome :=
  match read_int 2 s with
  | Err e => REnds (Err e)
  | Ok (ty, s1) => RGoes (RGet h ty s1)
  end.
(* Every member of ExtensionType has a class (iana.py:123-145), so a type that
   comes to :88 is an int and :69 `.name` raises AttributeError. *)
Definition rstep (C : crypto) (g : reg) (p : rpc) : reg * routcome :=
  match p with
  | RIdle => (g, RGoes RIdle)
  | RGet h ty s =>
    match registry ty with
    | Some f => (g, REnds (match f h with
                           | Some c => parse_known C ty c s
                           | None => Err (XAlert ILLEGAL_PARAMETER)
                           end))
    | None => (g, match g_get ty (g_made g) with Some _ => RGoes (RTruth ty s) | None => RGoes (ROuter ty s) end)
    end
  | RTruth ty s => (g, match g_get ty (g_made g) with Some (Some _) => RGoes (RAny ty s) | _ => RGoes (ROuter ty s) end)
  | RAny ty s =>
    (g, match g_get ty (g_made g) with
        | Some (Some m) => REnds (parse_made C m s)
        | _ => REnds (Err (XAlert ILLEGAL_PARAMETER))        (* :82-85 *)
        end)
  | ROuter ty s =>
    (mkReg (match g_get ty (g_made g) with Some _ => g_made g | None => (ty, None) :: g_made g end) (g_next g + 1),
     RGoes (RInner (mkMade (g_next g) ty) ty s))
  | RInner m ty s =>
    match g_get ty (g_made g) with
    | Some (Some m') => (g, if m_id m' =? m_id m then REnds (parse_made C m s) else REnds (Err XAttr))
    | Some None => (mkReg (g_set ty (Some m) (g_made g)) (g_next g), REnds (parse_made C m s))
    | None => (g, REnds (Err XKey))                          (* not reached *)
    end
  end.

(* the whole of Extension.parse, not interrupted *)
Definition parse_reg (C : crypto) (h : hname) (s : stream) (g : reg) : res (ext * stream) * reg :=
  match rbegin h s with
  | REnds r => (r, g)
  | RGoes p =>
    match rstep C g p with
    | (g1, REnds r) => (r, g1)
    | (g1, RGoes p1) =>
      match rstep C g1 p1 with
      | (g2, REnds r) => (r, g2)
      | (g2, RGoes p2) =>
        match rstep C g2 p2 with
        | (g3, REnds r) => (r, g3)
        | (g3, RGoes p3) =>
          match rstep C g3 p3 with
          | (g4, REnds r) => (r, g4)
          | (g4, RGoes _) => (Err XFuel, g4)
          end
        end
      end
    end
  end.
