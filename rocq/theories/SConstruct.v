(** Making a command from a list of actions. *)
From Verif Require Export SCommand.
Open Scope list_scope.
Open Scope Z_scope.

(** the list of actions an application gives may contain [None] *)
Definition present (l : list (option Action)) : list Action :=
  flat_map (fun o => match o with Some a => [a] | None => [] end) l.
Definition missing (l : list (option Action)) : bool := existsb (fun o => match o with Some _ => false | None => true end) l.

(** Why the action [a] cannot come after the actions [before] when the command
    was given the tag [t]: there is a tag already, the tag action has no tag, or
    there is an interface status already. *)
Definition refused_action (t : option Z) (before : list Action) (a : Action) : option exn :=
  if is_tag a then
    match t with
    | Some _ => Some ParseError
    | None => if existsb is_tag before then Some ParseError
              else match tag_id_of a with Some _ => None | None => Some AttributeError end
    end
  else if is_status a && existsb is_status before then Some ParseError
  else None.
(** a list of actions without such an action *)
Definition acceptable (t : option Z) (l : list Action) : Prop :=
  Forall tag_typed l /\ one_status l /\ match t with Some _ => filter is_tag l = [] | None => one_tag l end.
(** the random tag of a command that got none *)
Definition with_random (rnd : Z) (c : Command) : Command :=
  match c_generate c, c_tag c with
  | true, None => mkCommand (c_actions c) (c_status c) true (Some rnd) (c_respond c) (c_completed c) (c_error c)
  | _, _ => c
  end.
