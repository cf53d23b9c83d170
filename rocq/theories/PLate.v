(** Property C87: answers that come after their call has given up *)
From Verif Require Import SLate LLate.
Open Scope list_scope.
Open Scope Z_scope.

(** C87: what every call returns: the answers to all calls with its tag *)
Theorem C87_returned : forall lib s xs i x, in_use s -> labels_ok xs -> nth_error xs i = Some x ->
  nth_error (snd (converse lib s (map unlabelled xs))) i = Some (Ok (complete (labelled_with (has_tag_of xs x) x))).
Proof. exact late_results. Qed.
Print Assumptions C87_returned.
(** if late answers belong to calls with other tags, every call returns exactly
    its own answers, *)
Theorem C87_own_answers : forall lib s xs i x, in_use s -> labels_ok xs -> told_apart xs -> nth_error xs i = Some x ->
  nth_error (snd (converse lib s (map unlabelled xs))) i = Some (Ok (complete (labelled_with (is_label i) x))).
Proof. exact own_results. Qed.
Print Assumptions C87_own_answers.
(** and the late ones are handed over like unsolicited messages *)
Theorem C87_late_answers : forall lib s xs, in_use s -> labels_ok xs -> told_apart xs ->
  let s2 := fst (converse lib s (map unlabelled xs)) in
  session_inbox PCallback s2 = session_inbox PCallback s ++ (if to_callback s then all_not_own 0 xs else [])
  /\ session_inbox PUnsolicited s2 = session_inbox PUnsolicited s ++ (if to_callback s then [] else all_not_own 0 xs).
Proof. exact late_others. Qed.
Print Assumptions C87_late_answers.
Theorem C87_different_tags_suffice : forall xs, NoDup (map (fun x => c_tag (lb_command x)) xs) -> told_apart xs.
Proof. exact nodup_apart. Qed.
Print Assumptions C87_different_tags_suffice.
(** with equal tags a call returns the late answer to another command as its own *)
Theorem C87_own_answers_refuted : forall lib s c0 c1 t0 t1 tag r, in_use s ->
  command_wf c0 -> command_bytes c0 <= 255 -> 0 < t0 -> command_wf c1 -> command_bytes c1 <= 255 -> 0 < t1 ->
  c_tag c0 = Some tag -> c_tag c1 = Some tag -> reply_ok tag r -> re_eop r = true ->
  exists x0 x1, labels_ok [x0; x1] /\ lb_command x0 = c0 /\ lb_command x1 = c1
    /\ labelled_with (is_label 1) x1 = [] /\ labelled_with (is_label 0) x1 = [MCmd (reply_seen tag r)]
    /\ snd (converse lib s (map unlabelled [x0; x1])) = [Ok []; Ok [MCmd (reply_seen tag r)]].
Proof. exact taken_for_own. Qed.
Print Assumptions C87_own_answers_refuted.
(** how tags come to be equal: while [n] different tags are open, a new command
    gets one of them for [n] of its 256 draws, *)
Theorem C87_draws : forall make tags, (forall rnd, is_byte rnd -> drawn rnd (make rnd)) -> NoDup tags -> Forall is_byte tags ->
  length (filter (fun rnd => tag_is_one_of tags (make rnd)) draws) = length tags.
Proof. exact drawn_hits. Qed.
Print Assumptions C87_draws.
(** and of 257 commands two have the same tag, whatever is drawn *)
Theorem C87_collision : forall cs, Forall (fun c => exists rnd, is_byte rnd /\ drawn rnd c) cs -> (256 < length cs)%nat ->
  exists i j a b, (i < j)%nat /\ nth_error cs i = Some a /\ nth_error cs j = Some b /\ c_tag a = c_tag b.
Proof. exact drawn_collision. Qed.
Print Assumptions C87_collision.

(** two reads of different files that drew the same tag, and an answer with the
    content of the first file *)
Definition read_of (rnd id : Z) : Command :=
  mkCommand [mkAction (Regular false false) (ReadFileData (mkDataRequest (mkOffset id (mkLength 0)) (mkLength 1)))]
            None true (Some rnd) true false None.
Definition content_of_64 : Reply :=
  mkReply true false [mkAction (Regular false false) (ReturnFileData (mkData (mkOffset 64 (mkLength 0)) (mkLength 1) [5]) None)].
Lemma read_of_ok rnd id : is_byte rnd -> is_byte id -> command_wf (read_of rnd id) /\ command_bytes (read_of rnd id) <= 255.
Proof.
  intros R F. split; [|vm_compute; discriminate]. unfold command_wf, read_of. cbn [c_actions c_status c_generate c_tag]. repeat split; try reflexivity.
  - constructor; [|constructor]. split; [|exact Logic.I]. cbn. unfold dr_wf, off_wf, len_wf, len_max, is_byte in *. cbn. lia.
  - intros _. eauto.
Qed.
Example C87_case : (forall rnd, is_byte rnd -> drawn rnd (read_of rnd 64)) /\ reply_ok 7 content_of_64
  /\ in_use (new_session false true false)
  /\ exists x0 x1, lb_command x0 = read_of 7 64 /\ lb_command x1 = read_of 7 65
     /\ snd (converse true (new_session false true false) (map unlabelled [x0; x1])) = [Ok []; Ok [MCmd (reply_seen 7 content_of_64)]].
Proof.
  assert (R : reply_ok 7 content_of_64).
  { refine (conj _ (conj _ (conj eq_refl _))); [lia | | vm_compute; discriminate].
    constructor; [|constructor]. unfold action_wf, op_wf, data_wf, off_wf, len_wf, len_max. cbn.
    repeat split; try lia; try reflexivity; try discriminate. constructor; [unfold is_byte; lia | constructor]. }
  assert (U : in_use (new_session false true false)) by (unfold in_use, is_byte; cbn; repeat split; lia).
  refine (conj _ (conj R (conj U _))).
  - intros rnd B. exists [mkAction (Regular false false) (ReadFileData (mkDataRequest (mkOffset 64 (mkLength 0)) (mkLength 1)))], true.
    split; [repeat constructor | reflexivity].
  - destruct (read_of_ok 7 64) as [W0 B0]; [unfold is_byte; lia..|]. destruct (read_of_ok 7 65) as [W1 B1]; [unfold is_byte; lia..|].
    destruct (taken_for_own true (new_session false true false) (read_of 7 64) (read_of 7 65) 10 10 7 content_of_64 U W0 B0 ltac:(lia) W1 B1 ltac:(lia)
      eq_refl eq_refl R eq_refl) as (x0 & x1 & _ & A & B & _ & _ & C). exists x0, x1. auto.
Qed.
(** different tags: the late answer does not disturb the second call *)
Example C87_apart : exists xs, labels_ok xs /\ told_apart xs /\ map lb_command xs = [read_of 7 64; read_of 9 65]
  /\ (exists x, nth_error xs 1 = Some x /\ labelled_with (is_label 0) x = [MCmd (reply_seen 7 content_of_64)]
        /\ labelled_with (is_label 1) x = [MCmd (reply_seen 9 (mkReply true false []))])
  /\ snd (converse true (new_session false true false) (map unlabelled xs)) = [Ok []; Ok [MCmd (reply_seen 9 (mkReply true false []))]].
Proof.
  destruct C87_case as (_ & R & U & _).
  assert (R9 : reply_ok 9 (mkReply true false [])) by (refine (conj _ (conj (Forall_nil _) (conj eq_refl _))); cbn; lia).
  destruct (reply_sent 0 7 content_of_64 ltac:(unfold is_byte; lia) R) as (p & S).
  destruct (reply_sent 1 9 (mkReply true false []) ltac:(unfold is_byte; lia) R9) as (p9 & S9).
  destruct (read_of_ok 7 64) as [W0 B0]; [unfold is_byte; lia..|]. destruct (read_of_ok 9 65) as [W1 B1]; [unfold is_byte; lia..|].
  set (m := mkSent 0 1 p (MCmd (reply_seen 7 content_of_64))) in *. set (m9 := mkSent 1 1 p9 (MCmd (reply_seen 9 (mkReply true false [])))) in *.
  set (x1 := mkLabelled (read_of 9 65) 10 [(Some 0%nat, m); (Some 1%nat, m9)] [wire [m; m9]]).
  exists [mkLabelled (read_of 7 64) 10 [] []; x1].
  assert (L : labels_ok [mkLabelled (read_of 7 64) 10 [] []; x1]).
  { intros [|[|i]] x N; cbn [nth_error] in N; [injection N as <-|injection N as <-|destruct i; discriminate N].
    - split; [|constructor]. refine (conj W0 (conj B0 (conj _ (conj (Forall_nil _) eq_refl)))). cbn. lia.
    - split; [|repeat apply Forall_cons; [| |constructor]].
      + refine (conj W1 (conj B1 (conj _ (conj _ _)))); [cbn; lia | constructor; [exact S | constructor; [exact S9 | constructor]] |].
        cbn [unlabelled x_chunks concat lb_chunks x1]. apply app_nil_r.
      + refine (conj _ (conj _ _)); [lia | cbn; lia |]. eexists. eexists. exact (conj eq_refl (conj eq_refl eq_refl)).
      + refine (conj _ (conj _ _)); [lia | cbn; lia |]. eexists. eexists. exact (conj eq_refl (conj eq_refl eq_refl)). }
  assert (A : told_apart [mkLabelled (read_of 7 64) 10 [] []; x1]).
  { apply nodup_apart. cbn. constructor; [intros [X|[]]; discriminate X | constructor; [intros [] | constructor]]. }
  refine (conj L (conj A (conj eq_refl (conj _ _)))).
  - exists x1. repeat split.
  - rewrite (proj1 (LConverse.conversation_results true _ _ U (ok_exchanges _ L))). cbn [map]. f_equal.
Qed.
