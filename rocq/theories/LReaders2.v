(** Lemmas for any number of reader threads: how many there are, and the order of
    the bytes. *)
From Coq Require Import Lia Arith.
From Verif Require Import SReaders LReaders.
Set Implicit Arguments.

(** * How many readers *)
Definition creating (c : Call) : nat := match c with CCreate => 1 | _ => 0 end.
Definition creating_t (t : KThread) : nat := match t with KBusy c => creating c | _ => 0 end.
Definition due (w : Port) : nat := (list_sum (map creating (k_apps w)) + list_sum (map creating_t (k_threads w)))%nat.
Lemma sum_cut A (f : A -> nat) a x b : list_sum (map f (a ++ x :: b)) = (list_sum (map f a) + f x + list_sum (map f b))%nat.
Proof. rewrite map_app, list_sum_app. change (list_sum (map f (x :: b))) with (f x + list_sum (map f b))%nat. lia. Qed.
Lemma set_call_due w x c d : the_call w x = Some c -> (due (set_call x d w) + creating c = due w + creating d)%nat
  /\ length (k_threads (set_call x d w)) = length (k_threads w).
Proof.
  destruct w as [a inp cn o ts l aps], x as [i|i]; cbn; intro H.
  - split; [|reflexivity]. destruct (nth_cut _ _ H) as (p & q & -> & _ & S). unfold due. cbn. rewrite S, !sum_cut. lia.
  - split; [|apply set_length]. destruct (nth_error ts i) as [t|] eqn:E; [|discriminate].
    destruct (nth_cut _ _ E) as (p & q & -> & _ & S). destruct t; try discriminate. injection H as ->.
    unfold due. cbn. rewrite S, !sum_cut. cbn. lia.
Qed.
Lemma set_reader_due w i x y : nth_error (k_threads w) i = Some x -> creating_t x = 0%nat -> creating_t y = 0%nat ->
  due (set_reader i y w) = due w /\ length (k_threads (set_reader i y w)) = length (k_threads w).
Proof.
  destruct w as [a inp cn o ts l aps]. cbn. intros E X Y. split; [|apply set_length].
  destruct (nth_cut _ _ E) as (p & q & -> & _ & S). unfold due. cbn. rewrite S, !sum_cut. lia.
Qed.
Lemma step_threads w l v : port_step w l = Some v ->
  (length (k_threads v) + due v = length (k_threads w) + due w + if is_start l then 1 else 0)%nat.
Proof.
  assert (R : forall u i x y, length (k_threads u) = length (k_threads w) -> due u = due w ->
     nth_error (k_threads u) i = Some x -> creating_t x = 0%nat -> creating_t y = 0%nat ->
     (length (k_threads (set_reader i y u)) + due (set_reader i y u) = length (k_threads w) + due w + 0)%nat).
  { intros u i x y L D E X Y. destruct (set_reader_due u i y E X Y) as [-> ->]. lia. }
  destruct l as [b|i|i ok|i|x|x|x]; cbn [port_step is_start].
  - destruct (k_open w); [|discriminate]. intro H. injection H as <-. destruct w; cbn. unfold due. cbn. lia.
  - destruct (nth_error (k_threads w) i) as [t|] eqn:E; [|discriminate].
    destruct t as [| | |b|c|]; try discriminate.
    + intro H. injection H as <-. apply R with KTop; auto. destruct (k_active w); reflexivity.
    + destruct (k_open w); cbn [negb]; [|intro H; injection H as <-; apply R with KRead; auto].
      destruct (k_cancelled w); [|destruct (k_input w) as [|b r]; [discriminate|]]; intro H; injection H as <-;
        apply R with KRead; try (destruct w; auto; fail).
    + intro H. injection H as <-. apply R with (KGot b); auto.
  - destruct (nth_error (k_threads w) i) as [t|] eqn:E; [|discriminate].
    destruct t as [| | |b|[]|]; try discriminate. intro H. injection H as <-. apply R with (KBusy CNone); auto. destruct ok; reflexivity.
  - destruct (nth_error (k_threads w) i) as [t|] eqn:E; [|discriminate]. destruct t; try discriminate.
    destruct (k_open w); [|discriminate]. intro H. injection H as <-. apply R with KRead; destruct w; auto.
  - destruct (the_call w x) as [[]|] eqn:E; try discriminate. intro H. injection H as <-.
    assert (E' : the_call (set_active false w) x = Some CNone) by (rewrite the_call_active; exact E).
    destruct (set_call_due _ x CCancel E') as [D ->]. cbn in D.
    replace (due (set_active false w)) with (due w) in D by (destruct w; reflexivity).
    replace (k_threads (set_active false w)) with (k_threads w) by (destruct w; reflexivity). lia.
  - destruct (the_call w x) as [[]|] eqn:E; try discriminate. intro H. injection H as <-.
    assert (E' : the_call (set_active true w) x = Some CNone) by (rewrite the_call_active; exact E).
    destruct (set_call_due _ x CCreate E') as [D ->]. cbn in D.
    replace (due (set_active true w)) with (due w) in D by (destruct w; reflexivity).
    replace (k_threads (set_active true w)) with (k_threads w) by (destruct w; reflexivity). lia.
  - destruct (the_call w x) as [c|] eqn:E; [|discriminate].
    assert (Q : forall d, creating c = 0%nat -> creating d = 0%nat ->
       (length (k_threads (set_call x d w)) + due (set_call x d w) = length (k_threads w) + due w + 0)%nat).
    { intros d C0 D0. destruct (set_call_due _ x d E) as [D ->]. lia. }
    destruct c; try discriminate.
    + intro H. injection H as <-.
      set (u := set_cancelled _ w).
      assert (E' : the_call u x = Some CCancel) by (unfold u; rewrite the_call_cancelled; exact E).
      destruct (set_call_due _ x CLook E') as [D ->]. cbn in D.
      replace (due u) with (due w) in D by (destruct w; reflexivity).
      replace (k_threads u) with (k_threads w) by (destruct w; reflexivity). lia.
    + intro H. injection H as <-. apply Q; reflexivity.
    + destruct (nth_error (k_threads w) j) as [t|]; [|intro H; injection H as <-; apply Q; reflexivity].
      destruct t; try (intro H; injection H as <-; apply Q; reflexivity);
        (destruct x; [discriminate|]; destruct (Nat.eqb _ _); [intro H; injection H as <-; apply Q; reflexivity | discriminate]).
    + intro H. injection H as <-.
      destruct (set_call_due _ x CBegin (the_call_create w x E)) as [D ->]. cbn in D.
      assert (due (create w) = due w) by (destruct w as [a0 i0 cn0 o0 ts0 l0 ap0]; unfold due; cbn [create k_apps k_threads]; rewrite map_app, list_sum_app; change (list_sum (map creating_t [KNew])) with 0%nat; lia).
      assert (length (k_threads (create w)) = S (length (k_threads w))) by (destruct w; cbn; rewrite app_length; cbn; lia). lia.
    + intro H. injection H as <-. destruct (nth_error (k_threads w) (k_last w)) as [t|] eqn:L; [|apply Q; reflexivity].
      destruct t; try (apply Q; reflexivity).
      destruct (@set_reader_due w (k_last w) KNew KTop L eq_refl eq_refl) as [D1 L1].
      destruct (set_call_due _ x CNone (the_call_start _ x _ E L)) as [D ->]. cbn in D. lia.
Qed.
Lemma run_threads n ls : forall w, port_run (new_port n) ls = Some w ->
  (length (k_threads w) + due w = 1 + starts ls)%nat.
Proof.
  induction ls as [|l ls IH] using rev_ind; intros w H.
  - injection H as <-. assert (Z0 : list_sum (map creating (repeat CNone n)) = 0%nat) by (induction n; cbn; auto).
    unfold due, new_port. cbn [k_apps k_threads]. rewrite Z0. reflexivity.
  - destruct (port_run_snoc _ _ _ H) as (v & R & S). apply step_threads in S. apply IH in R.
    rewrite starts_app. unfold starts at 2. cbn. destruct (is_start l); cbn; lia.
Qed.
Lemma filter_le A (f : A -> bool) l : (length (filter f l) <= length l)%nat.
Proof. induction l as [|x l IH]; cbn; [lia|]. destruct (f x); cbn; lia. Qed.
Lemma run_live n ls w : port_run (new_port n) ls = Some w -> (live w <= 1 + starts ls)%nat /\ (length (held w) <= live w)%nat.
Proof.
  intro H. apply run_threads in H. rewrite held_eq. unfold live. split.
  - pose proof (filter_le alive_reader (k_threads w)). lia.
  - clear H. induction (k_threads w) as [|t r IH]; [cbn; lia|]. cbn [flat_map filter]. rewrite app_length. destruct t; cbn [hand alive_reader length plus] in *; lia.
Qed.

(** * The order of the bytes *)
Lemma picked_more all more bytes ns : picked all bytes ns -> picked (all ++ more) bytes ns.
Proof.
  intro H. induction H as [|k b ks bs E _ IH]; constructor; auto. rewrite nth_error_app1; [exact E|].
  apply nth_error_Some. congruence.
Qed.
Lemma picked_length all bytes ns : picked all bytes ns -> length ns = length bytes.
Proof. intro H. induction H; cbn; auto. Qed.
Lemma skip_cons (l : list Z) n b r : skipn n l = b :: r -> nth_error l n = Some b /\ skipn (S n) l = r.
Proof.
  revert l. induction n as [|n IH]; intros [|x l] H; cbn in *; try discriminate.
  - injection H as -> ->. auto.
  - apply IH in H. exact H.
Qed.
Definition in_order (all : list Z) (done hold inp : list Z) (slack : nat) : Prop :=
  exists order kept, picked all done order /\ picked all hold kept
  /\ Permutation (order ++ kept) (seq 0 (length (order ++ kept)))
  /\ (length (order ++ kept) <= length all)%nat
  /\ inp = skipn (length (order ++ kept)) all
  /\ forall i k, nth_error order i = Some k -> (k <= i + slack)%nat.
Lemma moves_order all done h i h' i' c d s : moves h i h' i' c d -> in_order all done h i s -> (length h <= S s)%nat ->
  in_order (all ++ c) (done ++ d) h' i' s.
Proof.
  intros M (order & kept & Po & Pk & Pm & Ln & Eq & B) Hs. inversion M; subst; clear M.
  - rewrite !app_nil_r. exists order, kept. auto 6.
  - exists order, kept. rewrite app_nil_r. split; [apply picked_more, Po|]. split; [apply picked_more, Pk|].
    split; [exact Pm|]. split; [rewrite (app_length all); lia|]. split; [|exact B].
    rewrite skipn_app. replace (length (order ++ kept) - length all)%nat with 0%nat by lia. reflexivity.
  - rewrite !app_nil_r. apply Forall2_app_inv_r in Pk as (kp & kq & Pp & Pq & ->).
    match goal with E : _ = skipn _ _ |- _ => symmetry in E; apply skip_cons in E as [N Sk] end.
    set (n := length (order ++ kp ++ kq)) in *.
    exists order, (kp ++ n :: kq). split; [exact Po|].
    split; [apply Forall2_app; [exact Pp|]; constructor; assumption|].
    assert (L : length (order ++ kp ++ n :: kq) = S n) by (unfold n; rewrite !app_length; cbn; lia).
    rewrite L. split; [|split; [|split; [|exact B]]].
    + rewrite seq_S. cbn [plus]. rewrite app_assoc. rewrite <- Permutation_middle.
      rewrite <- Permutation_cons_append. apply perm_skip. rewrite <- app_assoc. exact Pm.
    + assert (nth_error all n <> None) by congruence. apply nth_error_Some in H. lia.
    + symmetry. exact Sk.
  - rewrite !app_nil_r. apply Forall2_app_inv_r in Pk as (kp & kq' & Pp & Pq & ->).
    inversion Pq as [|k b' kq bs N Pq' E1 E2]; subst.
    exists (order ++ [k]), (kp ++ kq). split; [apply Forall2_app; [exact Po|]; repeat constructor; exact N|].
    split; [apply Forall2_app; assumption|].
    assert (L : length ((order ++ [k]) ++ kp ++ kq) = length (order ++ kp ++ k :: kq)) by (rewrite !app_length; cbn; lia).
    rewrite L. split; [|split; [exact Ln|split; [reflexivity|]]].
    + rewrite <- Pm. rewrite <- app_assoc. apply Permutation_app_head. cbn. apply Permutation_middle.
    + intros j m E. destruct (Nat.lt_ge_cases j (length order)) as [Lt|Ge].
      * rewrite nth_error_app1 in E by exact Lt. apply B, E.
      * rewrite nth_error_app2 in E by exact Ge. destruct (j - length order)%nat as [|z] eqn:Z0; [|destruct z; discriminate E].
        injection E as <-. assert (In k (seq 0 (length (order ++ kp ++ k :: kq)))) as I
          by (eapply Permutation_in; [exact Pm|]; rewrite !in_app_iff; cbn; auto).
        apply in_seq in I. apply picked_length in Pp. apply picked_length in Pq'.
        rewrite !app_length in I. cbn in I. rewrite app_length in Hs. cbn in Hs. lia.
Qed.
Lemma in_order_weaken all done h i s s' : in_order all done h i s -> (s <= s')%nat -> in_order all done h i s'.
Proof.
  intros (o & k & H1 & H2 & H3 & H4 & H5 & B) L. exists o, k. do 5 (split; [assumption|]).
  intros j m E. apply B in E. lia.
Qed.
Lemma run_order n ls : forall w, port_run (new_port n) ls = Some w ->
  in_order (came ls) (handed (new_port n) ls) (held w) (k_input w) (starts ls).
Proof.
  induction ls as [|l ls IH] using rev_ind; intros w H.
  - injection H as <-. exists [], []. cbn. repeat split; try constructor; try lia. intros [|]; discriminate.
  - destruct (port_run_snoc _ _ _ H) as (v & R & S). rewrite came_app, (handed_app _ [l] _ R). cbn [handed]. rewrite S, app_nil_r.
    eapply moves_order; [apply step_moves, S| |].
    + eapply in_order_weaken; [apply IH, R|]. rewrite starts_app. lia.
    + destruct (run_live _ _ R). rewrite starts_app. lia.
Qed.

(** without two bytes in hands at once, in order *)
Lemma run_plain n ls : forall w, port_run (new_port n) ls = Some w ->
  (forall pre post v, ls = pre ++ post -> port_run (new_port n) pre = Some v -> (length (held v) <= 1)%nat) ->
  came ls = handed (new_port n) ls ++ held w ++ k_input w.
Proof.
  induction ls as [|l ls IH] using rev_ind; intros w H A.
  - injection H as <-. reflexivity.
  - destruct (port_run_snoc _ _ _ H) as (v & R & S). rewrite came_app, (handed_app _ [l] _ R). cbn [handed]. rewrite S, app_nil_r.
    rewrite (IH _ R) by (intros pre post u E; apply (A pre (post ++ [l])); rewrite E, app_assoc; reflexivity).
    assert (Lv : (length (held v) <= 1)%nat) by (apply (A ls [l]); auto).
    assert (Lw : (length (held w) <= 1)%nat) by (apply (A (ls ++ [l]) []); [rewrite app_nil_r; reflexivity | exact H]).
    apply step_moves in S. generalize (handed (new_port n) ls) as hd. revert Lv Lw S.
    generalize (held v) (k_input v) (held w) (k_input w) (came [l]) (handed_by v l). clear.
    intros h i h' i' c d Lv Lw S hd. destruct S as [h i|h i b|p q i b|p q i b].
    + rewrite !app_nil_r. reflexivity.
    + rewrite app_nil_r, <- !app_assoc. reflexivity.
    + rewrite !app_nil_r. rewrite app_length in Lw. cbn in Lw.
      destruct p; [|cbn in Lw; lia]. destruct q; [|cbn in Lw; lia]. reflexivity.
    + rewrite app_length in Lv. cbn in Lv.
      destruct p; [|cbn in Lv; lia]. destruct q; [|cbn in Lv; lia]. rewrite app_nil_r. cbn. rewrite <- app_assoc. reflexivity.
Qed.
