(** What an export by [as_dict] is: a tree of plain data in which every
    attribute of the object is found under its name, at the same place. *)
From Coq Require Import String.
From Verif Require Import MBase MOperands MSysFiles MAlp MDll MAsDict.
Open Scope string_scope.

(** plain data: no object, no class anywhere inside *)
Fixpoint plain_data (v : Value) : bool :=
  match v with
  | PNone | PBool _ | PInt _ | PText _ | PName _ | PMember _ _ => true
  | PList l => forallb plain_data l
  | PDict items => (fix go (l : list (string * Value)) : bool :=
                      match l with [] => true | (_, x) :: r => plain_data x && go r end) items
  | PClass _ | PObj _ _ | POther _ => false
  end.

(** Walking through attributes, dict entries and list positions *)
Inductive Step := Attr (name : string) | Index (n : nat).
Fixpoint entry (k : string) (l : list (string * Value)) : option Value :=
  match l with
  | [] => None
  | (n, x) :: r => if String.eqb n k then Some x else entry k r
  end.
Definition child (v : Value) (s : Step) : option Value :=
  match v, s with
  | PObj _ attrs, Attr k => entry k attrs
  | PDict items, Attr k => entry k items
  | PList l, Index n => nth_error l n
  | _, _ => None
  end.
Fixpoint reach (v : Value) (path : list Step) : option Value :=
  match path with
  | [] => Some v
  | s :: r => match child v s with Some x => reach x r | None => None end
  end.

(** The value an export shows for [v]: objects become dicts, and so do the
    objects in a list. *)
Definition shown (v : Value) : Value :=
  match v with
  | PObj _ _ => as_dict v
  | PList l => PList (map (fun e => match e with PObj _ _ => as_dict e | _ => e end) l)
  | _ => v
  end.
Definition is_class (v : Value) : Prop := exists n, v = PClass n.

(** Trees of library objects: below an object only plain data, classes, such
    objects and lists of such objects; attribute names differ from each other
    and from the key for the class. *)
Fixpoint names_ok (l : list (string * Value)) : bool :=
  match l with
  | [] => true
  | (k, _) :: r => negb (String.eqb k "__CLASS__") && negb (existsb (fun e => String.eqb (fst e) k) r) && names_ok r
  end.
Fixpoint tidy (v : Value) : bool :=
  match v with
  | PObj _ attrs =>
      names_ok attrs
      && (fix go (l : list (string * Value)) : bool :=
            match l with [] => true | (_, x) :: r => tidy x && go r end) attrs
  | PList l => forallb (fun e => plain_data e || match e with PObj _ _ => tidy e | _ => false end) l
  | PClass _ => true
  | _ => plain_data v
  end.

(** Operations as their constructors leave them: the parsed content of a
    [ReturnFileData] is what [try_parse_system_file] found in its data. *)
Definition constructed_op (o : Operation) : Prop :=
  match o with ReturnFileData d p => p = try_parse_system_file d | _ => True end.
Definition constructed (c : Command) : Prop :=
  (forall a, In a (c_actions c) -> constructed_op (a_op a))
  /\ (forall a, c_status c = Some a -> constructed_op (a_op a)).
(** System files that are [Validatable] and have an id; the three lists of the
    model of the factory settings stand for 9, 6 and 3 attributes. *)
Definition exportable (f : SysFile) : Prop :=
  match f with
  | F_NotImpl _ _ => False
  | F_IfConfig f => ic_id (icf_conf f) <> IF_HOST /\ ic_id (icf_conf f) <> IF_SERIAL
  | F_Factory f => length (fs_rates f) = 9%nat /\ length (fs_pre f) = 6%nat /\ length (fs_tol f) = 3%nat
  | _ => True
  end.
Definition frame_command (f : DFrame) : option Command :=
  match f with DFg f => Some (tf_cmd (nf_tp (ff_np f))) | DBg _ => None end.
Definition frame_constructed (f : DFrame) : Prop :=
  forall c, frame_command f = Some c -> constructed c.
