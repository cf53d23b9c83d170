(** Stopping and starting the reader thread: proofs. *)
From Verif Require Import SLife LLink LConnect.

Lemma life_run_app lib a b : forall w, life_run lib w (a ++ b) =
  match life_run lib w a with Some w' => life_run lib w' b | None => None end.
Proof.
  induction a as [|l a IH]; intro w; [reflexivity|]. cbn [app life_run].
  destruct (life_step lib w l); [apply IH | reflexivity].
Qed.
Lemma life_run_snoc lib ls l w w' : life_run lib w (ls ++ [l]) = Some w' ->
  exists v, life_run lib w ls = Some v /\ life_step lib v l = Some w'.
Proof.
  rewrite life_run_app. destruct (life_run lib w ls) as [v|]; [|discriminate]. intro H. exists v. split; [reflexivity|].
  cbn [life_run] in H. destruct (life_step lib v l); [exact H | discriminate].
Qed.

(** ** Threads: at most the last one runs *)
Definition last_only (ts : list RThread) (t : RThread) : Prop :=
  exists pre, ts = pre ++ [t] /\ Forall (eq REnded) pre.
Lemma last_of ts t : last_only ts t -> last ts REnded = t.
Proof. intros (pre & -> & _). apply last_last. Qed.
Lemma nth_of ts t i x : last_only ts t -> nth_error ts i = Some x -> x <> REnded -> x = t /\ S i = length ts.
Proof.
  intros (pre & -> & F). revert i. induction pre as [|y pre IH]; intros [|i]; cbn [app nth_error length]; intros H N.
  - injection H as ->. auto.
  - destruct i; discriminate.
  - injection H as ->. inversion F; subst. congruence.
  - inversion F; subst. destruct (IH H3 i H N) as [-> E]. rewrite E. auto.
Qed.
Lemma nth_last ts t : last_only ts t -> nth_error ts (length ts - 1) = Some t.
Proof.
  intros (pre & -> & _). rewrite app_length. cbn [length]. replace (length pre + 1 - 1)%nat with (length pre) by lia.
  induction pre as [|y pre IH]; [reflexivity | exact IH].
Qed.
Lemma set_of ts t i t' : last_only ts t -> S i = length ts -> last_only (set_thread i t' ts) t'.
Proof.
  intros (pre & -> & F). revert i. induction pre as [|y pre IH]; intros [|i] L; cbn [app length] in L.
  - exists []. auto.
  - discriminate.
  - rewrite app_length in L. cbn [length] in L. lia.
  - inversion F; subst. destruct (IH H2 i ltac:(lia)) as (pre' & E & F').
    cbn [set_thread app]. rewrite E. exists (REnded :: pre'). auto.
Qed.
Lemma snoc_of ts : last_only ts REnded -> last_only (ts ++ [RTop]) RTop.
Proof. intros (pre & -> & F). exists (pre ++ [REnded]). split; [reflexivity|]. apply Forall_app. auto. Qed.
Lemma hands_of w t : last_only (lf_threads w) t -> in_its_hands w = match t with RGot b => [b] | _ => [] end.
Proof.
  unfold in_its_hands. intros (pre & -> & F). rewrite flat_map_app.
  replace (flat_map _ pre) with (@nil Z); [cbn; apply app_nil_r|].
  induction F as [|x l <- F IH]; [reflexivity | exact IH].
Qed.
Lemma readers_of w t : last_only (lf_threads w) t -> readers w = if running t then 1%nat else 0%nat.
Proof.
  unfold readers. intros (pre & -> & F). rewrite filter_app.
  replace (filter running pre) with (@nil RThread); [cbn; destruct (running t); reflexivity|].
  induction F as [|x l <- F IH]; [reflexivity | exact IH].
Qed.

(** ** Calls in turns *)
Lemma in_turns_snoc l : forall r c, in_turns r (l ++ [c]) <->
  in_turns r l /\ c = match l with [] => r | _ => negb (last l false) end.
Proof.
  induction l as [|x l IH]; intros r c; cbn [app in_turns]; [tauto|]. rewrite IH.
  destruct l as [|y l]; [|cbn [last]; tauto]. cbn [last in_turns].
  split; intros H; decompose [and] H; subst; auto.
Qed.
Lemma told_snoc ls l : told_to_read (ls ++ [l]) =
  match l with LStop => false | LStart => true | _ => told_to_read ls end.
Proof.
  unfold told_to_read, stops_and_starts. rewrite flat_map_app. cbn [flat_map]. rewrite app_nil_r.
  destruct l; cbn; rewrite ?app_nil_r, ?last_last; reflexivity.
Qed.
Lemma disciplined_snoc ls l : disciplined (ls ++ [l]) -> disciplined ls
  /\ (l = LStop -> told_to_read ls = true) /\ (l = LStart -> told_to_read ls = false).
Proof.
  unfold disciplined, told_to_read, stops_and_starts. rewrite flat_map_app. cbn [flat_map]. rewrite app_nil_r.
  destruct l; rewrite ?app_nil_r; try (intro H; split; [exact H | split; discriminate]);
    rewrite in_turns_snoc; intros [H E]; (split; [exact H|]); split; intro; try discriminate.
  - destruct (flat_map _ ls) as [|b bs]; [reflexivity | congruence].
  - destruct (flat_map _ ls) as [|b bs]; [discriminate | congruence].
Qed.
Lemma arrived_snoc ls l : arrived (ls ++ [l]) = arrived ls ++ match l with LArrive b => [b] | _ => [] end.
Proof. unfold arrived. rewrite flat_map_app. cbn [flat_map]. rewrite app_nil_r. reflexivity. Qed.

(** ** The shape of reachable states *)
Definition shape (ls : list LifeLabel) (w : Life) (t : RThread) : Prop :=
  last_only (lf_threads w) t /\
  match lf_app w with
  | RFree => lf_active w = told_to_read ls /\ (told_to_read ls = false -> t = REnded)
  | RCancel => told_to_read ls = false /\ lf_active w = false
  | RJoin => told_to_read ls = false /\ lf_active w = false
             /\ (t = RInRead -> lf_open w = true -> lf_cancelled w = true)
  | RStart => told_to_read ls = true /\ lf_active w = true /\ t = REnded
  end.

(** what the threads do to the data: [LReader] on the last thread *)
Lemma life_shape lib ls l v w t : shape ls v t -> disciplined (ls ++ [l]) -> life_step lib v l = Some w ->
  exists t', shape (ls ++ [l]) w t' /\
  match l with
  | LArrive b => t' = t /\ lf_parser w = lf_parser v /\ lf_modem w = lf_modem v /\ lf_input w = lf_input v ++ [b]
                 /\ lf_open v = true /\ lf_open w = true
  | LReader _ =>
      lf_open w = lf_open v /\
      match t with
      | RGot b => let r := reader_chunk lib (mkReader (lf_parser v) (lf_modem v) true) [b] in
                  lf_parser w = r_parser r /\ lf_modem w = r_modem r /\ lf_input w = lf_input v
                  /\ t' = (if r_alive r then RTop else REnded)
      | _ => lf_parser w = lf_parser v /\ lf_modem w = lf_modem v
             /\ match t' with RGot b => lf_open v = true /\ lf_input v = b :: lf_input w | _ => lf_input w = lf_input v end
      end
  | LFails _ => t = RInRead /\ t' = REnded /\ lf_parser w = lf_parser v /\ lf_modem w = lf_modem v
                /\ lf_input w = lf_input v /\ lf_open w = false
  | LStop => t' = t /\ lf_parser w = lf_parser v /\ lf_modem w = lf_modem v /\ lf_input w = lf_input v
             /\ lf_open w = lf_open v
  | LStart | LGoOn => (t' = t \/ t = REnded /\ t' = RTop)
             /\ lf_parser w = lf_parser v /\ lf_modem w = lf_modem v /\ lf_input w = lf_input v
             /\ lf_open w = lf_open v
  end.
Proof.
  intros [L A] D H. destruct (disciplined_snoc _ _ D) as (_ & D1 & D2). unfold shape. rewrite told_snoc.
  destruct v as [p m a inp c o ts ap]. cbn [lf_threads lf_app lf_active lf_open lf_cancelled lf_parser lf_modem lf_input] in *.
  destruct l as [b|i|i| | |]; cbn [life_step] in H.
  - destruct o; [|discriminate]. injection H as <-. exists t. cbn. auto 10.
  - destruct (nth_error ts i) as [x|] eqn:N; [|discriminate].
    assert (K : x <> REnded) by (intro; subst; discriminate).
    destruct (nth_of _ _ _ _ L N K) as [-> E]. destruct t as [| |b|]; [| | |congruence].
    + injection H as <-. exists (if a then RInRead else REnded). cbn. split; [split; [exact (set_of _ _ _ _ L E)|]|].
      * destruct ap, a; cbn in *; intuition congruence.
      * destruct a; auto.
    + destruct o; cbn [negb] in H.
      * destruct c.
        -- injection H as <-. exists RTop. cbn. split; [split; [exact (set_of _ _ _ _ L E)|]|auto].
           destruct ap; cbn in *; intuition congruence.
        -- destruct inp as [|b r]; [discriminate|]. injection H as <-. exists (RGot b). cbn.
           split; [split; [exact (set_of _ _ _ _ L E)|]|auto 10].
           destruct ap; cbn in *; intuition congruence.
      * injection H as <-. exists REnded. cbn. split; [split; [exact (set_of _ _ _ _ L E)|]|auto].
        destruct ap; cbn in *; intuition congruence.
    + injection H as <-. exists (if r_alive (reader_chunk lib (mkReader p m true) [b]) then RTop else REnded).
      cbn [lf_threads lf_app lf_active lf_open lf_cancelled lf_parser lf_modem lf_input].
      split; [split; [exact (set_of _ _ _ _ L E)|]|auto].
      destruct (r_alive _), ap; intuition congruence.
  - destruct (nth_error ts i) as [x|] eqn:N; [|discriminate]. destruct x; try discriminate.
    destruct (nth_of _ _ _ _ L N ltac:(discriminate)) as [<- E]. destruct o; [|discriminate].
    injection H as <-. exists REnded. cbn. split; [split; [exact (set_of _ _ _ _ L E)|]|auto 10].
    destruct ap; cbn in *; intuition congruence.
  - destruct ap; try discriminate. injection H as <-. exists t. cbn. auto 10.
  - destruct ap; try discriminate. injection H as <-. exists t. cbn. destruct A as [_ A].
    specialize (A (D2 eq_refl)). auto 10.
  - destruct ap; try discriminate.
    + injection H as <-. exists t. cbn. split; [|auto 10]. split; [exact L|]. destruct A as [A B].
      repeat split; try assumption. intros _ Q. rewrite Q. reflexivity.
    + rewrite (last_of _ _ L) in H. destruct t; try discriminate. injection H as <-. exists REnded. cbn.
      split; [|auto 10]. split; [exact L|]. destruct A as (A & B & _). rewrite A, B. auto.
    + destruct A as (A & B & ->). injection H as <-. exists RTop. cbn. split; [|auto 10].
      split; [exact (snoc_of _ L)|]. rewrite A. split; [exact B | discriminate].
Qed.
Lemma life_shape_run lib skip cb rbcb ls : forall w, disciplined ls -> life_run lib (new_life skip cb rbcb) ls = Some w ->
  exists t, shape ls w t.
Proof.
  induction ls as [|l ls IH] using rev_ind; intros w D R.
  - injection R as <-. exists RTop. split; [exists []; auto | split; [reflexivity | discriminate]].
  - destruct (life_run_snoc _ _ _ _ _ R) as (v & Rv & St). destruct (disciplined_snoc _ _ D) as (Dl & _).
    destruct (IH v Dl Rv) as (t & Sh). destruct (life_shape _ _ _ _ _ _ Sh D St) as (t' & Sh' & _). eauto.
Qed.

(** ** What was handled *)
Definition poisoned (lib : bool) (p : SParser) : Prop :=
  exists p0 x e, byte_in p0 /\ Forall is_byte x /\ sparse lib p0 x = (p, Err e).
Definition reads (lib skip cb rbcb : bool) (h : list Z) (p : SParser) (m : Modem) : Prop :=
  byte_in p /\ m = r_modem (se_reader (undisturbed lib skip cb rbcb h)) /\
  (if alive (undisturbed lib skip cb rbcb h) then p = r_parser (se_reader (undisturbed lib skip cb rbcb h))
   else poisoned lib p).
Lemma undisturbed_snoc lib skip cb rbcb h b : se_reader (undisturbed lib skip cb rbcb (h ++ [b])) =
  reader_chunk lib (se_reader (undisturbed lib skip cb rbcb h)) [b].
Proof. unfold undisturbed, devices. rewrite map_app, fold_left_app. reflexivity. Qed.
Lemma sparse_byte_in lib p x p' r : byte_in p -> Forall is_byte x -> sparse lib p x = (p', r) -> byte_in p'.
Proof.
  intros B F E. assert (Fb : Forall is_byte (sp_buf p ++ x)) by (apply Forall_app; auto). destruct r as [r|e].
  - destruct (parse_returns _ _ _ _ _ B F E) as ((pre & Q) & _). rewrite Q in Fb. apply Forall_app in Fb. apply Fb.
  - destruct (raise_inv _ _ _ _ _ B F E) as (_ & _ & pre & _ & _ & _ & _ & Q & _). rewrite Q in Fb.
    apply Forall_app in Fb. apply Fb.
Qed.
Lemma reads_step lib skip cb rbcb h p m b : reads lib skip cb rbcb h p m -> is_byte b ->
  let r := reader_chunk lib (mkReader p m true) [b] in reads lib skip cb rbcb (h ++ [b]) (r_parser r) (r_modem r)
  /\ r_alive r = alive (undisturbed lib skip cb rbcb (h ++ [b])).
Proof.
  intros (B & M & P) Hb. cbn zeta. unfold reads, alive in *. rewrite undisturbed_snoc.
  set (u := se_reader (undisturbed lib skip cb rbcb h)) in *.
  assert (F : Forall is_byte [b]) by (constructor; [exact Hb | constructor]).
  unfold reader_chunk. cbn [r_alive r_parser r_modem]. destruct (r_alive u) eqn:Al.
  - subst p m. destruct (sparse lib (r_parser u) [b]) as [p' [r|e]] eqn:E; cbn [r_alive r_parser r_modem].
    + pose proof (sparse_byte_in _ _ _ _ _ B F E). auto.
    + pose proof (sparse_byte_in _ _ _ _ _ B F E). split; [split; [assumption|]|reflexivity]. split; [reflexivity|].
      exists (r_parser u), [b], e. auto.
  - destruct P as (p0 & x & e & B0 & F0 & E0).
    destruct (poison_forever _ _ _ _ _ _ B0 F0 E0 F) as (p' & E & Q). rewrite E. rewrite Al.
    cbn [r_alive r_parser r_modem]. split; [|reflexivity]. split; [exact (sparse_byte_in _ _ _ _ _ B F E)|].
    split; [exact M|]. exists p, [b], IndexError. auto.
Qed.

Lemma life_data lib skip cb rbcb ls : forall w t, disciplined ls -> Forall is_byte (arrived ls) ->
  life_run lib (new_life skip cb rbcb) ls = Some w -> shape ls w t ->
  exists handled, arrived ls = handled ++ in_its_hands w ++ lf_input w
  /\ reads lib skip cb rbcb handled (lf_parser w) (lf_modem w)
  /\ (lf_active w = true -> lf_app w <> RStart -> lf_open w = true -> t = REnded ->
      alive (undisturbed lib skip cb rbcb handled) = false)
  /\ (lf_open w = false -> in_its_hands w = []).
Proof.
  induction ls as [|l ls IH] using rev_ind; intros w t' D F R Sh0.
  - injection R as <-. exists []. split; [reflexivity|]. split; [split; [constructor | split; reflexivity]|].
    split; [|reflexivity]. intros _ _ _ ->. destruct Sh0 as [(pre & E & _) _]. cbn in E.
    destruct pre as [|x [|y pre]]; discriminate.
  - destruct (life_run_snoc _ _ _ _ _ R) as (v & Rv & St). destruct (disciplined_snoc _ _ D) as (Dl & _).
    rewrite arrived_snoc in F |- *. apply Forall_app in F. destruct F as [F Fl].
    destruct (life_shape_run _ _ _ _ _ _ Dl Rv) as (t & Sh).
    destruct (IH v t Dl F Rv Sh) as (h & A & Q & E & O).
    destruct (life_shape _ _ _ _ _ _ Sh D St) as (t2 & Sh' & K).
    assert (t2 = t') as -> by (rewrite <- (last_of _ _ (proj1 Sh')); apply last_of; apply Sh0). clear Sh'.
    pose proof (proj2 Sh) as W. pose proof (proj2 Sh0) as W0.
    rewrite (hands_of v t (proj1 Sh)) in A, O. rewrite (hands_of w t' (proj1 Sh0)).
    destruct l as [b|i|i| | |].
    + destruct K as (-> & -> & -> & -> & Ov & Ow). exists h. rewrite A, !app_assoc. rewrite Ov in *.
      split; [reflexivity|]. split; [exact Q|]. split; [|rewrite Ow; discriminate].
      cbn [life_step] in St. destruct v as [p m a inp c o ts ap]. cbn in Ov. subst o. injection St as <-. exact E.
    + rewrite app_nil_r. destruct K as (Ow & K). rewrite Ow.
      assert (Act : lf_active w = lf_active v /\ lf_app w = lf_app v).
      { destruct v as [p m a inp c o ts ap]. cbn [life_step] in St. destruct (nth_error ts i) as [[]|]; try discriminate.
        - injection St as <-. auto.
        - destruct o; cbn [negb] in St; [destruct c; [|destruct inp; [discriminate|]]|]; injection St as <-; auto.
        - injection St as <-. auto. }
      destruct Act as [Ac Ap]. rewrite Ac, Ap. destruct t as [| |b|].
      * destruct K as (-> & -> & K). exists h. split; [|split; [exact Q|]].
        -- rewrite A. f_equal. destruct t'; try (symmetry; exact (f_equal _ K)). destruct K as [_ ->]. reflexivity.
        -- destruct v as [p m a inp c o ts ap]. cbn [life_step] in St.
           destruct (nth_error ts i) as [x|] eqn:N; [|discriminate].
           assert (Kx : x <> REnded) by (intro; subst; discriminate).
           destruct (nth_of _ _ _ _ (proj1 Sh) N Kx) as [-> L]. injection St as <-.
           pose proof (last_of _ _ (set_of _ _ _ (if a then RInRead else REnded) (proj1 Sh) L)) as Z1.
           pose proof (last_of _ _ (proj1 Sh0)) as Z2. cbn [lf_threads] in Z1, Z2. rewrite Z2 in Z1. subst t'. cbn.
           destruct a; split; congruence.
      * destruct K as (-> & -> & K). exists h. split; [|split; [exact Q|]].
        -- rewrite A. f_equal. destruct t'; try (symmetry; exact (f_equal _ K)). destruct K as [_ ->]. reflexivity.
        -- destruct v as [p m a inp c o ts ap]. cbn [life_step] in St.
           destruct (nth_error ts i) as [x|] eqn:N; [|discriminate].
           assert (Kx : x <> REnded) by (intro; subst; discriminate).
           destruct (nth_of _ _ _ _ (proj1 Sh) N Kx) as [-> L]. cbn [lf_open lf_active lf_app] in *.
           destruct o; cbn [negb] in St.
           ++ split; [|discriminate]. intros _ _ _ ->. exfalso. pose proof (last_of _ _ (proj1 Sh0)) as Z2.
              destruct c; [|destruct inp; [discriminate|]]; injection St as <-;
                pose proof (last_of _ _ (set_of _ _ _ RTop (proj1 Sh) L)) as Z1;
                [|pose proof (last_of _ _ (set_of _ _ _ (RGot z) (proj1 Sh) L)) as Z3];
                cbn [lf_threads] in *; congruence.
           ++ split; [discriminate|]. intros _. destruct t'; try reflexivity. destruct K as [K _]. discriminate.
      * destruct K as (-> & -> & -> & K). exists (h ++ [b]).
        assert (Hb : is_byte b).
        { rewrite A in F. apply Forall_app in F. destruct F as [_ F]. inversion F; assumption. }
        destruct (reads_step _ _ _ _ _ _ _ _ Q Hb) as [Q1 Q2].
        split; [|split; [exact Q1|]].
        -- rewrite A, <- app_assoc, K. destruct (r_alive _); reflexivity.
        -- split; [|intros _; rewrite K; destruct (r_alive _); reflexivity]. intros _ _ _ T.
           rewrite <- Q2. destruct (r_alive _); [rewrite T in K; discriminate | reflexivity].
      * exfalso. destruct v as [p m a inp c o ts ap]. cbn [life_step] in St.
        destruct (nth_error ts i) as [x|] eqn:N; [|discriminate].
        assert (Kx : x <> REnded) by (intro; subst; discriminate).
        destruct (nth_of _ _ _ _ (proj1 Sh) N Kx) as [-> L]. congruence.
    + destruct K as (-> & -> & -> & -> & -> & Ow). rewrite app_nil_r. exists h. rewrite Ow.
      split; [exact A|]. split; [exact Q|]. split; [discriminate | reflexivity].
    + destruct K as (-> & -> & -> & -> & Ow). rewrite app_nil_r. exists h. rewrite Ow.
      split; [exact A|]. split; [exact Q|]. split; [|exact O]. intros Ha. exfalso.
      destruct v as [p m a inp c o ts ap]. cbn [life_step] in St. destruct ap; try discriminate.
      injection St as <-. discriminate.
    + rewrite app_nil_r. destruct K as (K & -> & -> & -> & Ow). rewrite Ow. exists h.
      assert (Ap : lf_app w = RStart).
      { destruct v as [p m a inp c o ts ap]. cbn [life_step] in St. destruct ap; try discriminate. injection St as <-. reflexivity. }
      split; [destruct K as [->|[-> ->]]; exact A|]. split; [exact Q|].
      split; [congruence|]. destruct K as [->|[-> ->]]; auto.
    + rewrite app_nil_r. destruct K as (K & -> & -> & -> & Ow). rewrite Ow. exists h.
      split; [destruct K as [->|[-> ->]]; exact A|]. split; [exact Q|].
      split; [|destruct K as [->|[-> ->]]; auto]. intros Ha Hs Ho ->.
      destruct v as [p m a inp c o ts ap]. cbn [life_step] in St. cbn in *. destruct ap; try discriminate.
      * injection St as <-. cbn in *. destruct W; congruence.
      * destruct (last ts REnded); try discriminate. injection St as <-. cbn in *.
        decompose [and] W. congruence.
      * exfalso. injection St as <-. destruct Sh0 as [L0 _]. cbn in L0. apply last_of in L0. rewrite last_last in L0. discriminate.
Qed.

(** ** Theorems *)
Lemma life_one_reader lib skip cb rbcb ls w : disciplined ls -> life_run lib (new_life skip cb rbcb) ls = Some w ->
  (readers w <= 1)%nat.
Proof.
  intros D R. destruct (life_shape_run _ _ _ _ _ _ D R) as (t & Sh & _). rewrite (readers_of _ _ Sh). destruct (running t); lia.
Qed.
Lemma life_same lib skip cb rbcb ls w : disciplined ls -> Forall is_byte (arrived ls) ->
  life_run lib (new_life skip cb rbcb) ls = Some w ->
  exists handled, arrived ls = handled ++ in_its_hands w ++ lf_input w
  /\ let s := undisturbed lib skip cb rbcb handled in
     lf_modem w = r_modem (se_reader s) /\ (alive s = true -> lf_parser w = r_parser (se_reader s))
  /\ (lf_app w = RFree -> told_to_read ls = true -> lf_open w = true -> alive s = true -> readers w = 1%nat).
Proof.
  intros D F R. destruct (life_shape_run _ _ _ _ _ _ D R) as (t & Sh).
  destruct (life_data _ _ _ _ _ _ _ D F R Sh) as (h & A & (B & M & P) & E & _). exists h. split; [exact A|].
  cbn zeta. split; [exact M|]. split; [intro Al; rewrite Al in P; exact P|]. intros Fr T O Al.
  destruct Sh as [L Sh]. rewrite (readers_of _ _ L). rewrite Fr in *. destruct Sh as [Ac _].
  destruct t; try reflexivity. rewrite E in Al; try discriminate; congruence || exact O || reflexivity.
Qed.
Lemma life_stopped lib skip cb rbcb ls w : disciplined ls -> life_run lib (new_life skip cb rbcb) ls = Some w ->
  told_to_read ls = false -> lf_app w = RFree -> readers w = 0%nat
  /\ forall ls' w', ~ In LStart ls' -> life_run lib w ls' = Some w' ->
  lf_modem w' = lf_modem w /\ lf_parser w' = lf_parser w /\ lf_input w' = lf_input w ++ arrived ls'.
Proof.
  intros D R T Fr. destruct (life_shape_run _ _ _ _ _ _ D R) as (t & L & Sh). rewrite Fr in Sh. destruct Sh as [Ac E].
  specialize (E T). subst t. split; [rewrite (readers_of _ _ L); reflexivity|].
  intros ls' w' N R'. clear R D.
  enough (G : last_only (lf_threads w') REnded /\ lf_app w' <> RStart /\ lf_modem w' = lf_modem w /\ lf_parser w' = lf_parser w
    /\ lf_input w' = lf_input w ++ arrived ls') by tauto.
  revert w' R'. induction ls' as [|l ls' IH] using rev_ind; intros w' R'.
  - injection R' as <-. rewrite app_nil_r. repeat split; auto. rewrite Fr. discriminate.
  - destruct (life_run_snoc _ _ _ _ _ R') as (v & Rv & St).
    destruct (IH ltac:(intro X; apply N; apply in_or_app; auto) v Rv) as (Lv & Av & M & P & I).
    assert (Nl : l <> LStart) by (intro X; apply N; apply in_or_app; right; left; exact X).
    rewrite arrived_snoc, app_assoc, <- I, <- M, <- P. clear R' Rv IH N M P I.
    destruct v as [p m a inp c o ts ap]. cbn in Lv, Av. destruct l as [b|i|i| | |]; cbn [life_step] in St.
    + destruct o; [|discriminate]. injection St as <-. cbn. auto.
    + destruct (nth_error ts i) as [x|] eqn:Nx; [|discriminate].
      assert (Kx : x <> REnded) by (intro; subst; discriminate). destruct (nth_of _ _ _ _ Lv Nx Kx). congruence.
    + destruct (nth_error ts i) as [x|] eqn:Nx; [|discriminate].
      assert (Kx : x <> REnded) by (intro; subst; discriminate). destruct (nth_of _ _ _ _ Lv Nx Kx). congruence.
    + destruct ap; try discriminate. injection St as <-. cbn. rewrite app_nil_r. repeat split; auto; discriminate.
    + congruence.
    + destruct ap; try discriminate; [| |congruence].
      * injection St as <-. cbn. rewrite app_nil_r. repeat split; auto; discriminate.
      * rewrite (last_of _ _ Lv) in St. injection St as <-. cbn. rewrite app_nil_r. repeat split; auto; discriminate.
Qed.

(** from the call of [stop_reading] on *)
Definition pending (t : RThread) : nat := match t with RInRead | RGot _ => 1 | _ => 0 end.
Ltac hands I L := match type of I with in_its_hands ?u ++ _ = _ => rewrite (hands_of u _ L) in I end.
Lemma stopping_run lib ls : forall v w t, life_run lib v ls = Some w -> last_only (lf_threads v) t ->
  lf_active v = false -> lf_app v <> RStart -> stops_and_starts ls = [] ->
  exists h, (length h <= pending t)%nat /\ in_its_hands v ++ lf_input v ++ arrived ls = h ++ in_its_hands w ++ lf_input w
  /\ lf_modem w = r_modem (reading_on lib v h) /\ lf_parser w = r_parser (reading_on lib v h).
Proof.
  induction ls as [|l ls IH]; intros v w t R L A S C.
  - injection R as <-. exists []. rewrite app_nil_r. cbn. auto with arith.
  - cbn [life_run] in R. destruct (life_step lib v l) as [u|] eqn:St; [|discriminate].
    assert (Cs : stops_and_starts ls = [] /\ l <> LStop /\ l <> LStart).
    { unfold stops_and_starts in C |- *. cbn [flat_map] in C. apply app_eq_nil in C. destruct C as [C1 C2].
      split; [exact C2|]. split; intros ->; discriminate. }
    destruct Cs as (Cs & N1 & N2).
    change (arrived (l :: ls)) with (match l with LArrive b => [b] | _ => [] end ++ arrived ls).
    rewrite (hands_of v t L).
    destruct v as [p m a inp c o ts ap]. cbn [lf_threads lf_active lf_app lf_input lf_open] in *. subst a.
    destruct l as [b|i|i| | |]; cbn [life_step] in St; try congruence.
    + destruct o; [|discriminate]. injection St as <-.
      destruct (IH _ _ _ R L eq_refl S Cs) as (h & Lh & I & M & P). hands I L. exists h.
      split; [exact Lh|]. cbn [lf_input] in I. rewrite <- app_assoc in I. auto.
    + destruct (nth_error ts i) as [x|] eqn:N; [|discriminate].
      assert (K : x <> REnded) by (intro; subst; discriminate).
      destruct (nth_of _ _ _ _ L N K) as [-> E]. pose proof (fun t' => set_of _ _ _ t' L E) as L'.
      destruct t as [| |b|]; [| | |congruence].
      * injection St as <-. destruct (IH _ _ _ R (L' REnded) eq_refl S Cs) as (h & Lh & I & M & P).
        hands I (L' REnded). exists h. auto.
      * destruct o; cbn [negb] in St; [destruct c; [|destruct inp as [|b inp]; [discriminate|]]|]; injection St as <-.
        -- destruct (IH _ _ _ R (L' RTop) eq_refl S Cs) as (h & Lh & I & M & P).
           hands I (L' RTop). exists h. cbn in *. auto with arith.
        -- destruct (IH _ _ _ R (L' (RGot b)) eq_refl S Cs) as (h & Lh & I & M & P).
           hands I (L' (RGot b)). exists h. auto.
        -- destruct (IH _ _ _ R (L' REnded) eq_refl S Cs) as (h & Lh & I & M & P).
           hands I (L' REnded). exists h. cbn in *. auto with arith.
      * set (r := reader_chunk lib (mkReader p m true) [b]) in *.
        assert (G : forall t', (t' = RTop \/ t' = REnded) ->
          life_run lib (mkLife (r_parser r) (r_modem r) false inp c o (set_thread i t' ts) ap) ls = Some w ->
          exists h, (length h <= 1)%nat /\ [b] ++ inp ++ [] ++ arrived ls = h ++ in_its_hands w ++ lf_input w
          /\ lf_modem w = r_modem (reading_on lib (mkLife p m false inp c o ts ap) h)
          /\ lf_parser w = r_parser (reading_on lib (mkLife p m false inp c o ts ap) h)).
        { intros t' Ht R1. destruct (IH _ _ _ R1 (L' t') eq_refl S Cs) as (h & Lh & I & M & P).
          hands I (L' t'). exists [b].
          assert (h = []) as -> by (destruct h; [reflexivity|]; destruct Ht; subst; cbn in Lh; lia).
          split; [cbn; lia|]. cbn [app lf_input] in *.
          split; [rewrite <- I; destruct Ht; subst; reflexivity|]. cbn in M, P. rewrite M, P. auto. }
        injection St as <-. apply G in R; [exact R|]. destruct (r_alive r); auto.
    + destruct (nth_error ts i) as [x|] eqn:N; [|discriminate]. destruct x; try discriminate.
      destruct (nth_of _ _ _ _ L N ltac:(discriminate)) as [<- E]. destruct o; [|discriminate]. injection St as <-.
      pose proof (set_of _ _ _ REnded L E) as L'. destruct (IH _ _ _ R L' eq_refl S Cs) as (h & Lh & I & M & P).
      hands I L'. exists h. cbn in *. auto with arith.
    + destruct ap; try discriminate; [| |congruence].
      * injection St as <-. destruct (IH _ _ _ R L eq_refl ltac:(discriminate) Cs) as (h & Lh & I & M & P).
        hands I L. exists h. auto.
      * destruct (last ts REnded); try discriminate.
        injection St as <-. destruct (IH _ _ _ R L eq_refl ltac:(discriminate) Cs) as (h & Lh & I & M & P).
        hands I L. exists h. auto.
Qed.
Lemma life_stopping lib skip cb rbcb ls v ls' w : disciplined ls -> life_run lib (new_life skip cb rbcb) ls = Some v ->
  lf_app v = RCancel -> stops_and_starts ls' = [] -> life_run lib v ls' = Some w ->
  exists h, (length h <= 1)%nat /\ in_its_hands v ++ lf_input v ++ arrived ls' = h ++ in_its_hands w ++ lf_input w
  /\ lf_modem w = r_modem (reading_on lib v h) /\ lf_parser w = r_parser (reading_on lib v h).
Proof.
  intros D R Fr C R'. destruct (life_shape_run _ _ _ _ _ _ D R) as (t & L & Sh). rewrite Fr in Sh.
  destruct (stopping_run lib ls' v w t R' L (proj2 Sh) ltac:(congruence) C) as (h & Lh & K). exists h.
  split; [|exact K]. destruct t; cbn in Lh; lia.
Qed.

(** ** Calls return *)
Lemma life_resting lib skip cb rbcb ls w : disciplined ls -> life_run lib (new_life skip cb rbcb) ls = Some w ->
  resting lib w -> lf_app w = RFree
  /\ (readers w = 0%nat \/ told_to_read ls = true /\ lf_input w = [] /\ in_its_hands w = [] /\ lf_open w = true).
Proof.
  intros D R Q. destruct (life_shape_run _ _ _ _ _ _ D R) as (t & L & Sh).
  pose proof (Q LGoOn I) as Qa. pose proof (Q (LReader (length (lf_threads w) - 1)) I) as Qr.
  rewrite (readers_of _ _ L), (hands_of _ _ L). clear Q R.
  destruct w as [p m a inp c o ts ap]. cbn [lf_threads lf_app lf_active lf_open lf_cancelled lf_input life_step] in *.
  rewrite (nth_last _ _ L) in Qr. rewrite (last_of _ _ L) in Qa.
  assert (T : t = REnded \/ t = RInRead /\ o = true /\ c = false /\ inp = []).
  { destruct t; auto; try discriminate. right. destruct o; cbn [negb] in Qr; [|discriminate].
    destruct c; [discriminate|]. destruct inp; [auto | discriminate]. }
  destruct T as [->|(-> & -> & -> & ->)].
  - destruct ap; try discriminate. auto.
  - destruct ap; try discriminate.
    + destruct Sh as [Ac N]. split; [reflexivity|]. right. repeat split.
      destruct (told_to_read ls); [reflexivity | discriminate (N eq_refl)].
    + destruct Sh as (_ & _ & Sh). discriminate (Sh eq_refl eq_refl).
Qed.
Definition fuel_t (t : RThread) : nat := match t with REnded => 0 | RTop => 1 | RGot _ => 2 | RInRead => 3 end.
Definition fuel_a (a : RApp) : nat := match a with RCancel => 2 | RJoin => 1 | _ => 0 end.
Lemma stop_bound lib ls : forall w w' t, life_run lib w ls = Some w' -> last_only (lf_threads w) t ->
  lf_active w = false -> lf_app w <> RStart -> Forall internal ls -> (length ls <= fuel_t t + fuel_a (lf_app w))%nat.
Proof.
  induction ls as [|l ls IH]; intros w w' t R L A S F; [cbn; lia|]. cbn [life_run] in R.
  destruct (life_step lib w l) as [u|] eqn:St; [|discriminate]. inversion F as [|x y Il Fl]; subst.
  destruct w as [p m a inp c o ts ap]. cbn [lf_threads lf_active lf_app] in *. subst a.
  destruct l as [b|i|i| | |]; cbn [internal] in Il; try contradiction; cbn [life_step] in St.
  - destruct (nth_error ts i) as [x|] eqn:N; [|discriminate].
    assert (K : x <> REnded) by (intro; subst; discriminate).
    destruct (nth_of _ _ _ _ L N K) as [-> E]. pose proof (fun t' => set_of _ _ _ t' L E) as L'.
    destruct t as [| |b|]; [| | |congruence].
    + injection St as <-. pose proof (IH _ _ _ R (L' REnded) eq_refl S Fl) as B. cbn in *. lia.
    + destruct o; cbn [negb] in St; [destruct c; [|destruct inp as [|b inp]; [discriminate|]]|]; injection St as <-.
      * pose proof (IH _ _ _ R (L' RTop) eq_refl S Fl) as B. cbn in *. lia.
      * pose proof (IH _ _ _ R (L' (RGot b)) eq_refl S Fl) as B. cbn in *. lia.
      * pose proof (IH _ _ _ R (L' REnded) eq_refl S Fl) as B. cbn in *. lia.
    + injection St as <-. pose proof (IH _ _ _ R (L' _) eq_refl S Fl) as B. cbn [lf_app fuel_t length] in *.
      destruct (r_alive _); cbn [fuel_t] in B; lia.
  - destruct ap; try discriminate; [| |congruence].
    + injection St as <-. pose proof (IH _ _ _ R L eq_refl ltac:(discriminate) Fl) as B. cbn in *. lia.
    + destruct (last ts REnded); try discriminate. injection St as <-.
      pose proof (IH _ _ _ R L eq_refl ltac:(discriminate) Fl) as B. cbn in *. lia.
Qed.
Lemma life_stop_returns lib skip cb rbcb ls w ls' w' : disciplined ls -> life_run lib (new_life skip cb rbcb) ls = Some w ->
  lf_app w = RCancel \/ lf_app w = RJoin -> Forall internal ls' -> life_run lib w ls' = Some w' -> (length ls' <= 5)%nat.
Proof.
  intros D R A F R'. destruct (life_shape_run _ _ _ _ _ _ D R) as (t & L & Sh).
  assert (Ac : lf_active w = false) by (destruct A as [A|A]; rewrite A in Sh; tauto).
  pose proof (stop_bound lib ls' w w' t R' L Ac ltac:(destruct A; congruence) F) as B.
  destruct t, A as [A|A]; rewrite A in B; cbn in B; lia.
Qed.

(** ** A port that failed *)
Definition no_byte (t : RThread) : Prop := match t with RGot _ => False | _ => True end.
Lemma set_no_byte i t : no_byte t -> forall ts, Forall no_byte ts -> Forall no_byte (set_thread i t ts).
Proof.
  intros N ts F. revert i. induction F as [|x ts Hx F IH]; intros [|i]; cbn [set_thread]; try constructor; auto.
Qed.
Lemma closed_run lib ls : forall w w', lf_open w = false -> Forall no_byte (lf_threads w) -> life_run lib w ls = Some w' ->
  lf_open w' = false /\ lf_modem w' = lf_modem w /\ lf_parser w' = lf_parser w /\ lf_input w' = lf_input w.
Proof.
  induction ls as [|l ls IH]; intros w w' O N R; [injection R as <-; auto|]. cbn [life_run] in R.
  destruct (life_step lib w l) as [u|] eqn:St; [|discriminate].
  enough (G : lf_open u = false /\ Forall no_byte (lf_threads u) /\ lf_modem u = lf_modem w
    /\ lf_parser u = lf_parser w /\ lf_input u = lf_input w).
  { destruct G as (G1 & G2 & <- & <- & <-). exact (IH _ _ G1 G2 R). }
  destruct w as [p m a inp c o ts ap]. cbn in O, N. subst o.
  destruct l as [b|i|i| | |]; cbn [life_step negb] in St; try discriminate.
  - destruct (nth_error ts i) as [x|] eqn:Nx; [|discriminate]. destruct x; try discriminate.
    + injection St as <-. cbn. repeat split; auto. apply set_no_byte; [destruct a; exact I | exact N].
    + injection St as <-. cbn. repeat split; auto. apply set_no_byte; [exact I | exact N].
    + exfalso. apply nth_error_In in Nx. rewrite Forall_forall in N. exact (N _ Nx).
  - destruct (nth_error ts i) as [[]|]; discriminate.
  - destruct ap; try discriminate. injection St as <-. auto.
  - destruct ap; try discriminate. injection St as <-. auto.
  - destruct ap; try discriminate.
    + injection St as <-. auto.
    + destruct (last ts REnded); try discriminate. injection St as <-. auto.
    + injection St as <-. cbn. repeat split; auto. apply Forall_app. split; [exact N | repeat constructor].
Qed.
Lemma life_failed lib skip cb rbcb ls w ls' w' : disciplined ls -> Forall is_byte (arrived ls) ->
  life_run lib (new_life skip cb rbcb) ls = Some w -> lf_open w = false -> life_run lib w ls' = Some w' ->
  lf_modem w' = lf_modem w /\ lf_parser w' = lf_parser w /\ lf_input w' = lf_input w.
Proof.
  intros D F R O R'. destruct (life_shape_run _ _ _ _ _ _ D R) as (t & Sh).
  destruct (life_data _ _ _ _ _ _ _ D F R Sh) as (_ & _ & _ & _ & N). specialize (N O).
  refine (proj2 (closed_run lib ls' w w' O _ R')). unfold in_its_hands in N. clear - N.
  induction (lf_threads w) as [|x l IH]; [constructor|]. cbn [flat_map] in N. apply app_eq_nil in N. destruct N as [N1 N2].
  constructor; [destruct x; try exact I; discriminate | auto].
Qed.

(** ** Two readers *)
Definition out_of_order : list LifeLabel :=
  [LStart; LGoOn; LReader 0; LReader 1; LArrive 192; LArrive 0; LReader 0; LReader 1; LReader 1; LReader 0]
  ++ flat_map (reads_one 0) (skipn 2 some_answer) ++ [LReader 0; LReader 1].
Lemma two_readers_lose lib skip cb rbcb : exists ls w, life_run lib (new_life skip cb rbcb) ls = Some w
  /\ stops_and_starts ls = [false] /\ arrived ls = some_answer /\ lf_input w = [] /\ in_its_hands w = []
  /\ (forall p, life_inbox p w = [])
  /\ exists p x, session_inbox p (undisturbed lib skip cb rbcb some_answer) = [x].
Proof.
  exists out_of_order. destruct lib, skip, cb, rbcb; (eexists; split; [vm_compute; reflexivity|];
    split; [reflexivity|]; split; [vm_compute; reflexivity|]; split; [reflexivity|]; split; [reflexivity|];
    split; [intros []; reflexivity|];
    first [exists PUnsolicited; eexists; vm_compute; reflexivity | exists SModem.PResult; eexists; vm_compute; reflexivity]).
Qed.

Definition not_stopped : list LifeLabel :=
  [LStart; LGoOn] ++ flat_map (reads_one 0) (removelast some_answer)
  ++ [LReader 0; LReader 1; LStop; LGoOn; LReader 1; LReader 1; LGoOn].
Lemma two_readers_not_stopped lib skip cb rbcb : exists ls w more w',
  life_run lib (new_life skip cb rbcb) ls = Some w /\ stops_and_starts ls = [false; true] /\ lf_app w = RFree
  /\ readers w = 1%nat /\ stops_and_starts more = [] /\ life_run lib w more = Some w'
  /\ exists p x, life_inbox p w = [] /\ life_inbox p w' = [x].
Proof.
  exists not_stopped. destruct lib, skip, cb, rbcb; (eexists; exists [LArrive (last some_answer 0); LReader 0; LReader 0];
    eexists; split; [vm_compute; reflexivity|]; split; [reflexivity|]; split; [reflexivity|];
    split; [reflexivity|]; split; [reflexivity|]; split; [vm_compute; reflexivity|];
    first [exists PUnsolicited; eexists; split; vm_compute; reflexivity
          | exists SModem.PResult; eexists; split; vm_compute; reflexivity]).
Qed.
Lemma two_readers_hang lib skip cb rbcb : exists ls w,
  life_run lib (new_life skip cb rbcb) ls = Some w /\ stops_and_starts ls = [false; true] /\ lf_app w = RJoin
  /\ lf_open w = true /\ resting lib w.
Proof.
  exists [LStart; LGoOn; LReader 0; LReader 1; LStop; LGoOn; LReader 0; LReader 0]. eexists.
  split; [reflexivity|]. split; [reflexivity|]. split; [reflexivity|]. split; [reflexivity|].
  intros l I. destruct l as [b|i|i| | |]; try contradiction I; [|reflexivity].
  destruct i as [|[|[|i]]]; reflexivity.
Qed.

(** ** Whole messages *)
Lemma undisturbed_app lib skip cb rbcb a b :
  undisturbed lib skip cb rbcb (a ++ b) = devices lib (undisturbed lib skip cb rbcb a) (map (fun b => DBytes [b]) b).
Proof. unfold undisturbed, devices. rewrite map_app, fold_left_app. reflexivity. Qed.
Lemma concat_single (l : list Z) : concat (map (fun b => [b]) l) = l.
Proof. induction l as [|b l IH]; [reflexivity|]. cbn. rewrite IH. reflexivity. Qed.
Lemma life_delivers lib skip cb rbcb ls w tr : disciplined ls -> life_run lib (new_life skip cb rbcb) ls = Some w ->
  told_to_read ls = true -> lf_open w = true -> resting lib w -> Forall (sent_ok skip) tr -> arrived ls = wire tr ->
  lf_modem w = fold_left dispatch (SSerial.delivered tr) (new_modem skip cb rbcb).
Proof.
  intros D R T O Q S A. assert (F : Forall is_byte (arrived ls)) by (rewrite A; apply (wire_bytes skip); exact S).
  destruct (life_same _ _ _ _ _ _ D F R) as (h & E & M & _ & C). cbn zeta in C.
  assert (U : exists p, se_reader (undisturbed lib skip cb rbcb (wire tr)) =
     mkReader p (fold_left dispatch (SSerial.delivered tr) (new_modem skip cb rbcb)) true).
  { unfold undisturbed. rewrite <- (map_map (fun b => [b]) DBytes). rewrite devices_reader.
    destruct (LModem.reader_traffic lib (map (fun b => [b]) (wire tr)) (new_parser skip) (new_modem skip cb rbcb) tr)
      as (p & U & _); [exact S | reflexivity | apply concat_single | split; cbn; lia|]. exists p. exact U. }
  destruct U as (p & U).
  destruct (life_resting _ _ _ _ _ _ D R Q) as [Fr [N|(_ & I & H & _)]].
  - exfalso. assert (Al : alive (undisturbed lib skip cb rbcb h) = true).
    { destruct (alive (undisturbed lib skip cb rbcb h)) eqn:Al; [reflexivity|]. rewrite <- A, E, undisturbed_app in U.
      rewrite devices_dead in U by exact Al. unfold alive in Al. rewrite U in Al. discriminate. }
    rewrite (C Fr T O Al) in N. discriminate.
  - rewrite I, H, !app_nil_r in E. rewrite M, <- E, A, U. reflexivity.
Qed.

(** ** Nothing runs for ever *)
Definition fuel_r (t : RThread) : nat := match t with REnded => 0 | RInRead => 1 | RTop => 2 | RGot _ => 3 end.
Lemma reading_bound lib ls : forall w w' t, life_run lib w ls = Some w' -> last_only (lf_threads w) t ->
  lf_active w = true -> (lf_app w = RFree \/ lf_app w = RStart /\ t = REnded) -> Forall internal ls ->
  (length ls <= fuel_r t + 3 * length (lf_input w) + (if lf_cancelled w then 2 else 0)
               + match lf_app w with RStart => 3 | _ => 0 end)%nat.
Proof.
  induction ls as [|l ls IH]; intros w w' t R L A S F; [cbn; lia|]. cbn [life_run] in R.
  destruct (life_step lib w l) as [u|] eqn:St; [|discriminate]. inversion F as [|x y Il Fl]; subst.
  destruct w as [p m a inp c o ts ap]. cbn [lf_threads lf_active lf_app lf_input lf_cancelled] in *. subst a.
  destruct l as [b|i|i| | |]; cbn [internal] in Il; try contradiction; cbn [life_step] in St.
  - destruct (nth_error ts i) as [x|] eqn:N; [|discriminate].
    assert (K : x <> REnded) by (intro; subst; discriminate).
    destruct (nth_of _ _ _ _ L N K) as [-> E]. pose proof (fun t' => set_of _ _ _ t' L E) as L'.
    destruct S as [->|[_ ->]]; [|congruence].
    destruct t as [| |b|]; [| | |congruence].
    + injection St as <-. pose proof (IH _ _ _ R (L' RInRead) eq_refl (or_introl eq_refl) Fl) as B. cbn in *. lia.
    + destruct o; cbn [negb] in St; [destruct c; [|destruct inp as [|b inp]; [discriminate|]]|]; injection St as <-.
      * pose proof (IH _ _ _ R (L' RTop) eq_refl (or_introl eq_refl) Fl) as B. cbn in *. lia.
      * pose proof (IH _ _ _ R (L' (RGot b)) eq_refl (or_introl eq_refl) Fl) as B. cbn in *. lia.
      * pose proof (IH _ _ _ R (L' REnded) eq_refl (or_introl eq_refl) Fl) as B. cbn in *. lia.
    + injection St as <-. pose proof (IH _ _ _ R (L' _) eq_refl (or_introl eq_refl) Fl) as B.
      cbn [lf_app lf_input lf_cancelled fuel_r length] in *. destruct (r_alive _); cbn [fuel_r] in B; lia.
  - destruct S as [->|[-> ->]]; [discriminate|]. injection St as <-.
    pose proof (IH _ _ _ R (snoc_of _ L) eq_refl (or_introl eq_refl) Fl) as B. cbn in *. lia.
Qed.
Lemma life_bounded lib skip cb rbcb ls w ls' w' : disciplined ls -> life_run lib (new_life skip cb rbcb) ls = Some w ->
  Forall internal ls' -> life_run lib w ls' = Some w' -> (length ls' <= 3 * length (lf_input w) + 5)%nat.
Proof.
  intros D R F R'. destruct (life_shape_run _ _ _ _ _ _ D R) as (t & L & Sh).
  destruct (lf_active w) eqn:Ac.
  - assert (S : lf_app w = RFree \/ lf_app w = RStart /\ t = REnded).
    { destruct (lf_app w); [auto | destruct Sh; congruence | destruct Sh as (_ & Sh & _); congruence | tauto]. }
    pose proof (reading_bound lib ls' w w' t R' L Ac S F) as B.
    destruct S as [S|[S ->]]; rewrite S in B; destruct (lf_cancelled w); try (destruct t; cbn in B; lia); cbn in B; lia.
  - assert (S : lf_app w <> RStart) by (intro S; rewrite S in Sh; destruct Sh as (_ & Sh & _); congruence).
    pose proof (stop_bound lib ls' w w' t R' L Ac S F) as B. destruct t, (lf_app w); cbn in B; lia.
Qed.
