(** C93: making a command from a list of actions *)
From Verif Require Import SConstruct LConstruct.
Open Scope list_scope.
Open Scope Z_scope.

(** which lists of actions make a command, and which command *)
Theorem C93_made_iff : forall rnd l g t r c, mk_command rnd l g t r = Ok c <->
  acceptable t (present l) /\ missing l = false /\ c = with_random rnd (command_of g t r (present l)).
Proof. exact made. Qed.
Print Assumptions C93_made_iff.
(** which do not, and what is raised: the first action that does not fit
    decides; without one, a [None] in the list is a ValueError *)
Theorem C93_refused_iff : forall rnd l g t r e, mk_command rnd l g t r = Err e <->
  (exists before a after, present l = before ++ a :: after /\ acceptable t before /\ refused_action t before a = Some e)
  \/ (acceptable t (present l) /\ missing l = true /\ e = ValueError).
Proof. exact not_made. Qed.
Print Assumptions C93_refused_iff.
(** [acceptable] is the absence of such an action *)
Theorem C93_acceptable : forall t before a, acceptable t before ->
  (acceptable t (before ++ [a]) <-> refused_action t before a = None).
Proof. exact acceptable_snoc. Qed.
Print Assumptions C93_acceptable.
(** the tag: the one of the tag action, wherever it stands; a random one only if
    there is none and the command sends a tag request *)
Theorem C93_tag : forall rnd l g r, one_tag l -> Forall tag_typed l ->
  c_tag (with_random rnd (command_of g None r l)) =
  match filter is_tag l with a :: _ => tag_id_of a | [] => if g then Some rnd else None end.
Proof. exact random_tag. Qed.
Print Assumptions C93_tag.
(** on the wire: the tag action is not where it was in the list but first, as a
    tag request, or not there at all; the other actions follow in order *)
Theorem C93_wire : forall rnd l g t r c, mk_command rnd l g t r = Ok c -> filter is_status (present l) = [] ->
  Forall (fun a => plain a = true -> action_wf a) (present l) -> (g = true -> exists v, c_tag c = Some v /\ 0 <= v <= 255) ->
  emits (command_ser c)
    ((match g, c_tag c with true, Some v => tag_bits (c_respond c) v | _, _ => [] end) ++ flat_map action_layout (filter plain (present l)))
  /\ c_respond c = match filter is_tag (present l) with a :: _ => match a_kind a with TagReqAct x => x | _ => r end | [] => r end.
Proof. exact made_wire. Qed.
Print Assumptions C93_wire.
Example C93_case :
  let nop := mkAction (Regular false false) NoOperation in
  let tag t := mkAction (TagReqAct false) (TagRequest (mkTag t)) in
  let ser r := match r with Ok c => command_ser c | Err e => Err e end in
  ser (mk_command 200 [Some nop; Some (tag 5); Some nop] true None true) = Ok [52; 5; 0; 0]
  /\ ser (mk_command 200 [Some nop; Some (tag 5); Some nop] false None true) = Ok [0; 0]
  /\ mk_command 200 [Some (tag 5); None; Some (tag 6)] true None true = Err ParseError
  /\ mk_command 200 [Some (tag 5)] true (Some 5) true = Err ParseError
  /\ mk_command 200 [Some (mkAction (TagReqAct true) NoOperation); Some (tag 6)] true None true = Err AttributeError
  /\ mk_command 200 [Some nop; None] true None true = Err ValueError.
Proof. vm_compute. repeat split. Qed.
