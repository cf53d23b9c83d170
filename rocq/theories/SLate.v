(** Answers that arrive late: every message is labelled with the request it
    answers *)
From Verif Require Export SConverse.

(** one call of [execute_command]; a message of the traffic answers the call
    with the given number (from 0), or none *)
Record Labelled := mkLabelled
  { lb_command : Command; lb_timeout : Z; lb_traffic : list (option nat * Sent); lb_chunks : list (list Z) }.
Definition unlabelled (x : Labelled) : Exchange :=
  mkExchange (lb_command x) (lb_timeout x) (map snd (lb_traffic x)) (lb_chunks x).

(** an answer to call [j] comes during call [j] or later and has its tag; a
    message that answers no call does not have the tag of the call in progress *)
Definition label_ok (xs : list Labelled) (i : nat) (x : Labelled) (om : option nat * Sent) : Prop :=
  match fst om with
  | Some j => (j <= i)%nat /\ s_type (snd om) <= 3
      /\ exists y c, nth_error xs j = Some y /\ s_msg (snd om) = MCmd c /\ c_tag c = c_tag (lb_command y)
  | None => forall c, s_msg (snd om) = MCmd c -> c_tag c <> c_tag (lb_command x)
  end.
Definition labels_ok (xs : list Labelled) : Prop :=
  forall i x, nth_error xs i = Some x -> exchange_ok (unlabelled x) /\ Forall (label_ok xs i x) (lb_traffic x).

(** the messages with certain labels, in order of arrival *)
Definition labelled_with (f : option nat -> bool) (x : Labelled) : list Msg :=
  map (fun om => s_msg (snd om)) (filter (fun om => f (fst om)) (lb_traffic x)).
Definition is_label (i : nat) (o : option nat) : bool := match o with Some j => Nat.eqb j i | None => false end.
Definition complete (l : list Msg) : list Msg := if existsb ends_execution l then l else [].

(** no answer that arrives during a call answers an earlier call with the same tag *)
Definition told_apart (xs : list Labelled) : Prop :=
  forall i x j m y, nth_error xs i = Some x -> In (Some j, m) (lb_traffic x) -> j <> i -> nth_error xs j = Some y ->
  c_tag (lb_command y) <> c_tag (lb_command x).

(** the numbers of the calls with the tag of [x] *)
Definition has_tag_of (xs : list Labelled) (x : Labelled) (o : option nat) : bool :=
  match o with
  | Some j => match nth_error xs j with Some y => same_tag (c_tag (lb_command y)) (c_tag (lb_command x)) | None => false end
  | None => false
  end.

(** the commands, log messages and so on that answer no call or an earlier one *)
Definition not_own (i : nat) (x : Labelled) : list Msg :=
  map (fun om => s_msg (snd om)) (filter (fun om => (s_type (snd om) <=? 3) && negb (is_label i (fst om))) (lb_traffic x)).
Fixpoint all_not_own (i : nat) (xs : list Labelled) : list Msg :=
  match xs with [] => [] | x :: r => not_own i x ++ all_not_own (S i) r end.

(** the values a tag can be drawn from *)
Definition draws : list Z := map Z.of_nat (seq 0 256).
(** a command made without a tag, its actions carrying none *)
Definition drawn (rnd : Z) (c : Command) : Prop :=
  exists l respond, Forall (fun a => is_tag a = false) l /\ mk_command rnd (map Some l) true None respond = Ok c.
Definition tag_is_one_of (tags : list Z) (c : Command) : bool := existsb (fun t => same_tag (c_tag c) (Some t)) tags.
