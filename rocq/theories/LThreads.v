From Verif Require Import LBits LBytes LTraffic LSend LSerialProps SThreads.

(** ** Updating one thread *)
Lemma nth_set_same {A} (l : list A) : forall i (x y : A), nth_error l i = Some y -> nth_error (set_nth i x l) i = Some x.
Proof.
  induction l as [|a l IH]; intros [|i] x y H; try discriminate; [reflexivity|].
  cbn in H. unfold set_nth in *. cbn. eapply IH. exact H.
Qed.
Lemma nth_set_other {A} (l : list A) : forall i j (x y : A), nth_error l i = Some y -> i <> j ->
  nth_error (set_nth i x l) j = nth_error l j.
Proof.
  induction l as [|a l IH]; intros [|i] j x y H N; try discriminate.
  - destruct j; [congruence|]. reflexivity.
  - destruct j; [reflexivity|]. cbn in H. unfold set_nth in *. cbn. eapply IH; [exact H | congruence].
Qed.
Lemma set_nth_length {A} (l : list A) : forall i (x y : A), nth_error l i = Some y -> length (set_nth i x l) = length l.
Proof.
  induction l as [|a l IH]; intros [|i] x y H; try discriminate; [reflexivity|].
  cbn in H. unfold set_nth in *. cbn. f_equal. eapply IH. exact H.
Qed.

(** ** The frame a thread builds *)
Lemma built_inv c alp f : built c alp = Ok f -> Forall is_byte alp ->
  is_byte c /\ is_payload alp /\ f = frame c 1 alp.
Proof.
  unfold built, build_serial_frame. cbn [sp_up rbind]. intros E F.
  unfold yield1 in E. destruct ((0 <=? c) && (c <=? 255)) eqn:C; cbn [rbind] in E; [|discriminate].
  cbn [Z.leb Z.compare andb Pos.compare Pos.compare_cont rbind] in E.
  destruct ((0 <=? zlen alp) && (zlen alp <=? 255)) eqn:L; cbn [rbind] in E; [|discriminate].
  unfold frame. destruct (calculate_crc alp) as [hi lo]. cbn [snd] in E. injection E as <-.
  unfold is_byte, is_payload. repeat split; try lia; auto.
Qed.
Lemma built_ok c alp : is_byte c -> is_payload alp -> built c alp = Ok (frame c 1 alp).
Proof.
  intros B [F L]. unfold built. rewrite build_ok; [reflexivity | exact B | exact L].
Qed.
Lemma built_err c alp e : built c alp = Err e -> e = ValueError /\ (~ is_byte c \/ 255 < zlen alp).
Proof.
  unfold built, build_serial_frame. cbn [sp_up rbind]. intros E.
  unfold yield1 in E. destruct ((0 <=? c) && (c <=? 255)) eqn:C; cbn [rbind] in E.
  - cbn [Z.leb Z.compare andb Pos.compare Pos.compare_cont rbind] in E.
    destruct ((0 <=? zlen alp) && (zlen alp <=? 255)) eqn:L; cbn [rbind] in E.
    + destruct (calculate_crc alp). discriminate.
    + cbn [snd] in E. injection E as <-. split; [reflexivity|]. right. unfold zlen in *. lia.
  - cbn [snd] in E. injection E as <-. split; [reflexivity|]. left. unfold is_byte. lia.
Qed.

(** ** The invariant *)
Definition frame_of (alp f : list Z) : Prop := exists c, is_byte c /\ is_payload alp /\ f = frame c 1 alp.
Definition pc_ok (lk : option nat) (part : list Z) (i : nat) (pc : TPC) : Prop :=
  match pc with
  | TIdle => True
  | TBuild alp => Forall is_byte alp
  | TLoad alp f | TStore alp f _ | TCheck alp f | TReset alp f | TLock alp f => frame_of alp f
  | TWrite alp rest => lk = Some i /\ frame_of alp (part ++ rest)
  end.
Definition thread_ok (lk : option nat) (part : list Z) (L : list Transmission) (program : list (res (list Z))) (i : nat) (t : Thread) : Prop :=
  pc_ok lk part i (t_pc t) /\ program_bytes (t_todo t) /\ of_thread i L = returned_normally t
  /\ program = map fst (t_log t) ++ current t ++ t_todo t.
Record inv (programs : list (list (res (list Z)))) (s : Shared) (L : list Transmission) (part : list Z) : Prop := mkInv
  { inv_wire : sh_wire s = flat_map tr_frame L ++ part;
    inv_ok : Forall transmission_ok L;
    inv_free : sh_lock s = None -> part = [];
    inv_held : forall k, sh_lock s = Some k -> exists t alp rest, nth_error (sh_threads s) k = Some t /\ t_pc t = TWrite alp rest;
    inv_len : length (sh_threads s) = length programs;
    inv_thread : forall i t, nth_error (sh_threads s) i = Some t ->
      thread_ok (sh_lock s) part L (nth i programs []) i t }.

Lemma start_inv c programs : Forall program_bytes programs -> inv programs (threads_start c programs) [] [].
Proof.
  intro F. constructor; cbn; try reflexivity; try constructor; try discriminate.
  - apply map_length.
  - rewrite nth_error_map in H. destruct (nth_error programs i) as [p|] eqn:E; [|discriminate].
    cbn in H. injection H as <-. exact I.
  - rewrite nth_error_map in H. destruct (nth_error programs i) as [p|] eqn:E; [|discriminate].
    cbn in H. injection H as <-. split.
    + cbn. rewrite Forall_forall in F. apply F. eapply nth_error_In. exact E.
    + split; [reflexivity|]. cbn. apply nth_error_nth. exact E.
Qed.

Lemma of_thread_app i a b : of_thread i (a ++ b) = of_thread i a ++ of_thread i b.
Proof. unfold of_thread. rewrite filter_app, map_app. reflexivity. Qed.
Lemma normally_app t t' e : t_log t' = t_log t ++ [e] ->
  returned_normally t' = returned_normally t ++ match e with (Ok alp, None) => [alp] | _ => [] end.
Proof. unfold returned_normally. intros ->. rewrite flat_map_app. cbn. rewrite app_nil_r. reflexivity. Qed.
Lemma normally_skip t t' x e : t_log t' = t_log t ++ [(x, Some e)] -> returned_normally t' = returned_normally t.
Proof. intro H. rewrite (normally_app t t' _ H). destruct x; apply app_nil_r. Qed.
Lemma normally_take t t' a l : t_log t' = t_log t ++ [(Ok a, None)] -> l = returned_normally t -> l ++ [a] = returned_normally t'.
Proof. intros H ->. rewrite (normally_app t t' _ H). reflexivity. Qed.
Lemma normally_same t t' : t_log t' = t_log t -> returned_normally t' = returned_normally t.
Proof. unfold returned_normally. intros ->. reflexivity. Qed.

(** replacing the state of thread [i] when the lock, the wire and the
    transmissions do not change *)
Lemma inv_update programs s L part i t t' c :
  inv programs s L part -> nth_error (sh_threads s) i = Some t ->
  (forall alp rest, t_pc t <> TWrite alp rest) ->
  pc_ok (sh_lock s) part i (t_pc t') -> program_bytes (t_todo t') -> returned_normally t' = returned_normally t ->
  map fst (t_log t') ++ current t' ++ t_todo t' = map fst (t_log t) ++ current t ++ t_todo t ->
  inv programs (mkShared c (sh_lock s) (sh_wire s) (set_nth i t' (sh_threads s))) L part.
Proof.
  intros I E N P B R M. destruct I as [I1 I2 I3 I4 I5 I6]. constructor; cbn [sh_wire sh_lock sh_threads]; auto.
  - intros k H. destruct (I4 k H) as (t0 & alp & rest & E0 & P0).
    assert (k <> i). { intros ->. rewrite E in E0. injection E0 as <-. exact (N _ _ P0). }
    exists t0, alp, rest. split; [|exact P0]. rewrite (nth_set_other _ _ _ _ _ E) by congruence. exact E0.
  - rewrite (set_nth_length _ _ _ _ E). exact I5.
  - intros j u H. destruct (Nat.eq_dec i j) as [<-|D].
    + rewrite (nth_set_same _ _ _ _ E) in H. injection H as <-. destruct (I6 i t E) as (_ & _ & Q1 & Q2).
      repeat split; auto; congruence.
    + rewrite (nth_set_other _ _ _ _ _ E) in H by exact D. apply I6. exact H.
Qed.
Lemma inv_step programs s i s' L part : inv programs s L part -> thread_step s i = Some s' ->
  exists L' part', inv programs s' L' part'.
Proof.
  intros I H. unfold thread_step in H. destruct (nth_error (sh_threads s) i) as [t|] eqn:E; [|discriminate].
  pose proof (inv_thread _ _ _ _ I i t E) as (T1 & T2 & T3 & T4).
  destruct t as [todo pc log]. cbn [t_pc t_todo t_log] in *.
  destruct pc as [|alp|alp f|alp f v|alp f|alp f|alp f|alp rest]; cbn [pc_ok] in T1.
  - destruct todo as [|[alp|e] r]; [discriminate| |]; injection H as <-; exists L, part;
      inversion T2 as [|x y B1 B2]; subst; (eapply inv_update; [exact I | exact E | discriminate | | | | ]); cbn [t_pc t_todo t_log pc_ok current app]; auto using normally_same.
    + eapply normally_skip. reflexivity.
    + rewrite map_app, <- app_assoc. reflexivity.
  - destruct (built (sh_counter s) alp) as [f|e] eqn:B; injection H as <-; exists L, part;
      (eapply inv_update; [exact I | exact E | discriminate | | | | ]); cbn [t_pc t_todo t_log pc_ok current app]; auto using normally_same.
    + apply built_inv in B; [|exact T1]. destruct B as (B1 & B2 & ->). exists (sh_counter s). auto.
    + eapply normally_skip. reflexivity.
    + rewrite map_app, <- app_assoc. reflexivity.
  - injection H as <-. exists L, part. eapply inv_update; [exact I | exact E | discriminate | | | | ]; cbn [t_pc t_todo t_log pc_ok current app]; auto using normally_same.
  - injection H as <-. exists L, part. eapply inv_update; [exact I | exact E | discriminate | | | | ]; cbn [t_pc t_todo t_log pc_ok current app]; auto using normally_same.
  - injection H as <-. exists L, part. destruct (255 <? sh_counter s);
      (eapply inv_update; [exact I | exact E | discriminate | | | | ]); cbn [t_pc t_todo t_log pc_ok current app]; auto using normally_same.
  - injection H as <-. exists L, part. eapply inv_update; [exact I | exact E | discriminate | | | | ]; cbn [t_pc t_todo t_log pc_ok current app]; auto using normally_same.
  - destruct (sh_lock s) as [k|] eqn:LK; [discriminate|]. injection H as <-. exists L, part.
    destruct I as [I1 I2 I3 I4 I5 I6]. pose proof (I3 LK) as ->. constructor; cbn [sh_wire sh_lock sh_threads]; auto.
    + intros k H. injection H as <-. eexists _, alp, f. split; [apply (nth_set_same _ _ _ _ E) | reflexivity].
    + rewrite (set_nth_length _ _ _ _ E). exact I5.
    + intros j u H. destruct (Nat.eq_dec i j) as [<-|D].
      * rewrite (nth_set_same _ _ _ _ E) in H. injection H as <-. repeat split; auto.
      * rewrite (nth_set_other _ _ _ _ _ E) in H by exact D. destruct (I6 j u H) as (Q & Q').
        split; [|exact Q']. destruct (t_pc u); auto. cbn in Q. rewrite LK in Q. destruct Q; discriminate.
  - destruct T1 as [LK FR]. destruct rest as [|b r]; injection H as <-.
    + rewrite app_nil_r in FR. destruct FR as (c & Bc & Pa & ->).
      exists (L ++ [(i, c, alp)]), []. destruct I as [I1 I2 I3 I4 I5 I6]. constructor; cbn [sh_wire sh_lock sh_threads].
      * rewrite I1, flat_map_app. cbn. rewrite !app_nil_r. reflexivity.
      * apply Forall_app. split; [exact I2|]. constructor; [|constructor]. split; assumption.
      * reflexivity.
      * discriminate.
      * rewrite (set_nth_length _ _ _ _ E). exact I5.
      * intros j u H. destruct (Nat.eq_dec i j) as [<-|D].
        -- rewrite (nth_set_same _ _ _ _ E) in H. injection H as <-. refine (conj I (conj T2 (conj _ _))).
           ++ rewrite of_thread_app. unfold of_thread at 2. cbn [filter tr_thread fst]. rewrite Nat.eqb_refl. cbn [map tr_alp snd]. eapply normally_take; [|exact T3]. reflexivity.
           ++ rewrite T4. cbn [t_log t_todo current t_pc]. rewrite map_app, <- app_assoc. reflexivity.
        -- rewrite (nth_set_other _ _ _ _ _ E) in H by exact D. destruct (I6 j u H) as (Q & Q1 & Q2 & Q3).
           refine (conj _ (conj Q1 (conj _ Q3))).
           ++ destruct (t_pc u); auto. cbn in Q. rewrite LK in Q. destruct Q; congruence.
           ++ rewrite of_thread_app, Q2. unfold of_thread. cbn. apply Nat.eqb_neq in D. rewrite D. apply app_nil_r.
    + exists L, (part ++ [b]). destruct I as [I1 I2 I3 I4 I5 I6]. constructor; cbn [sh_wire sh_lock sh_threads]; auto.
      * rewrite I1, app_assoc. reflexivity.
      * congruence.
      * intros k K. rewrite LK in K. injection K as <-. eexists _, alp, r. split; [apply (nth_set_same _ _ _ _ E) | reflexivity].
      * rewrite (set_nth_length _ _ _ _ E). exact I5.
      * intros j u H. destruct (Nat.eq_dec i j) as [<-|D].
        -- rewrite (nth_set_same _ _ _ _ E) in H. injection H as <-. refine (conj (conj LK _) (conj T2 (conj T3 T4))).
           rewrite <- app_assoc. exact FR.
        -- rewrite (nth_set_other _ _ _ _ _ E) in H by exact D. destruct (I6 j u H) as (Q & Q').
           split; [|exact Q']. destruct (t_pc u); auto. cbn in Q. rewrite LK in Q. destruct Q; congruence.
Qed.
Lemma inv_run programs sched : forall s s' L part, inv programs s L part -> threads_run s sched = Some s' ->
  exists L' part', inv programs s' L' part'.
Proof.
  induction sched as [|i sched IH]; intros s s' L part I R; cbn in R.
  - injection R as <-. eauto.
  - destruct (thread_step s i) as [s1|] eqn:E; [|discriminate].
    destruct (inv_step _ _ _ _ _ _ I E) as (L1 & p1 & I1). eapply IH; eauto.
Qed.
Lemma threads_wire c programs sched s : Forall program_bytes programs ->
  threads_run (threads_start c programs) sched = Some s ->
  exists L part, sh_wire s = flat_map tr_frame L ++ part /\ Forall transmission_ok L
  /\ length (sh_threads s) = length programs
  /\ (forall i t, nth_error (sh_threads s) i = Some t ->
        of_thread i L = returned_normally t /\ nth i programs [] = map fst (t_log t) ++ current t ++ t_todo t)
  /\ (part = [] \/ exists i t, nth_error (sh_threads s) i = Some t /\ writing t part).
Proof.
  intros F R. destruct (inv_run programs sched _ _ [] [] (start_inv c programs F) R) as (L & part & I).
  destruct I as [I1 I2 I3 I4 I5 I6]. exists L, part. split; [exact I1|]. split; [exact I2|]. split; [exact I5|]. split.
  - intros i t E. destruct (I6 i t E) as (_ & _ & A & B). auto.
  - destruct (sh_lock s) as [k|] eqn:LK; [|left; auto]. right.
    destruct (I4 k eq_refl) as (t & alp & rest & E & P). exists k, t. split; [exact E|].
    destruct (I6 k t E) as (Q & _). rewrite P in Q. destruct Q as (_ & c0 & _ & _ & Q). exists c0, alp, rest. auto.
Qed.
Definition raw_of (x : Transmission) : Sent := mkSent (tr_counter x) 1 (tr_alp x) (MRaw (tr_alp x)).
Lemma raw_wire L : wire (map raw_of L) = flat_map tr_frame L.
Proof. induction L as [|x L IH]; [reflexivity|]. cbn [map wire flat_map]. f_equal. exact IH. Qed.
Lemma raw_delivered L : delivered (map raw_of L) = map (fun x => (1, MRaw (tr_alp x))) L.
Proof. unfold delivered. rewrite map_map. reflexivity. Qed.
Lemma threads_delivered lib c programs sched s q chunks : Forall program_bytes programs ->
  threads_run (threads_start c programs) sched = Some s -> all_done s ->
  sp_skip q = true -> sp_buf q = [] -> is_byte (sp_down q) -> concat chunks = sh_wire s -> chunks <> [] ->
  exists L q', feeds lib q chunks q' (map (fun x => (1, MRaw (tr_alp x))) L) [] /\ sp_buf q' = []
  /\ sp_errs q' = sp_errs q + jumps (sp_down q) (map tr_counter L)
  /\ forall i t, nth_error (sh_threads s) i = Some t ->
       of_thread i L = returned_normally t /\ nth i programs [] = map fst (t_log t).
Proof.
  intros F R D S B Dn E N. destruct (threads_wire c programs sched s F R) as (L & part & W & O & _ & T & P).
  assert (part = []) as ->.
  { destruct P as [P|(i & t & Et & c0 & alp & rest & Pc & _)]; [exact P|]. exfalso.
    unfold all_done in D. rewrite Forall_forall in D. destruct (D t (nth_error_In _ _ Et)). congruence. }
  rewrite app_nil_r in W.
  destruct (traffic lib chunks q (map raw_of L)) as (q' & H1 & H2 & H3 & _); try assumption.
  - rewrite S. apply Forall_map. eapply Forall_impl; [|exact O]. intros x [A1 A2]. apply sent_raw; auto; unfold is_byte; lia.
  - rewrite B, E, W, raw_wire. reflexivity.
  - exists L, q'. rewrite raw_delivered in H1. rewrite map_map in H3. cbn [s_counter raw_of] in H3.
    refine (conj H1 (conj H2 (conj H3 _))). intros i t Et. destruct (T i t Et) as [A1 A2]. split; [exact A1|].
    unfold all_done in D. rewrite Forall_forall in D. destruct (D t (nth_error_In _ _ Et)) as [D1 D2].
    rewrite A2. unfold current. rewrite D1, D2. cbn. rewrite app_nil_r. reflexivity.
Qed.

(** ** When the counter does not wrap, only oversized commands raise *)
Definition unstored (t : Thread) : Z :=
  zlen (t_todo t) + match t_pc t with TBuild _ | TLoad _ _ | TStore _ _ _ => 1 | _ => 0 end.
Definition remaining (l : list Thread) : Z := fold_right (fun t a => unstored t + a) 0 l.
Lemma remaining_set l : forall i t t', nth_error l i = Some t ->
  remaining (set_nth i t' l) = remaining l - unstored t + unstored t'.
Proof.
  induction l as [|a l IH]; intros [|i] t t' E; try discriminate; cbn in E.
  - injection E as ->. unfold set_nth. cbn. lia.
  - change (set_nth (S i) t' (a :: l)) with (a :: set_nth i t' l). cbn [remaining fold_right].
    specialize (IH i t t' E). unfold remaining in IH. rewrite IH. lia.
Qed.
Lemma unstored_nonneg t : 0 <= unstored t.
Proof. unfold unstored, zlen. destruct (t_pc t); lia. Qed.
Lemma remaining_nonneg l : 0 <= remaining l.
Proof.
  unfold remaining. induction l as [|t l IH]; cbn [fold_right]; [lia|]. pose proof (unstored_nonneg t). lia.
Qed.
Definition small (B : Z) (s : Shared) : Prop :=
  0 <= sh_counter s /\ sh_counter s + remaining (sh_threads s) <= B
  /\ forall i t, nth_error (sh_threads s) i = Some t ->
     (forall alp f, t_pc t <> TReset alp f)
     /\ (forall alp f v, t_pc t = TStore alp f v -> 0 <= v /\ v + remaining (sh_threads s) <= B)
     /\ (forall alp e, In (Ok alp, Some e) (t_log t) -> e = ValueError /\ 255 < zlen alp).
Lemma small_step B s i s' : B <= 255 -> small B s -> thread_step s i = Some s' -> small B s'.
Proof.
  intros HB (S1 & S2 & S3) H. unfold thread_step in H. destruct (nth_error (sh_threads s) i) as [t|] eqn:E; [|discriminate].
  pose proof (S3 i t E) as (T1 & T2 & T3). destruct t as [todo pc log]. cbn [t_pc t_todo t_log] in *.
  pose proof (remaining_nonneg (sh_threads s)) as RN.
  assert (K : forall c lk w t', 0 <= c -> c + remaining (set_nth i t' (sh_threads s)) <= B ->
     remaining (set_nth i t' (sh_threads s)) <= remaining (sh_threads s) ->
     (forall alp f, t_pc t' <> TReset alp f) ->
     (forall alp f v, t_pc t' = TStore alp f v -> 0 <= v /\ v + remaining (set_nth i t' (sh_threads s)) <= B) ->
     (forall alp e, In (Ok alp, Some e) (t_log t') -> e = ValueError /\ 255 < zlen alp) ->
     small B (mkShared c lk w (set_nth i t' (sh_threads s)))).
  { intros c lk w t' A1 A2 A3 A4 A5 A6. split; [exact A1|]. split; [exact A2|]. cbn [sh_threads]. intros j u Hj.
    destruct (Nat.eq_dec i j) as [<-|D].
    - rewrite (nth_set_same _ _ _ _ E) in Hj. injection Hj as <-. auto.
    - rewrite (nth_set_other _ _ _ _ _ E) in Hj by exact D. destruct (S3 j u Hj) as (U1 & U2 & U3).
      split; [exact U1|]. split; [|exact U3]. intros alp f v Q. specialize (U2 alp f v Q). lia. }
  assert (R : forall t', remaining (set_nth i t' (sh_threads s)) = remaining (sh_threads s) - unstored (mkThread todo pc log) + unstored t').
  { intro t'. apply remaining_set. exact E. }
  destruct pc as [|alp|alp f|alp f v|alp f|alp f|alp f|alp rest].
  - destruct todo as [|[alp|e] r]; [discriminate| |]; injection H as <-; apply K; rewrite ?R; unfold unstored, zlen; cbn [t_pc t_todo t_log length];
      try lia; try discriminate; auto.
    intros a e' I. apply in_app_iff in I. destruct I as [I|[I|[]]]; [exact (T3 _ _ I) | discriminate].
  - destruct (built (sh_counter s) alp) as [f|e] eqn:Bu; injection H as <-; apply K; rewrite ?R; unfold unstored; cbn [t_pc t_todo t_log];
      try lia; try discriminate; auto.
    intros a e' I. apply in_app_iff in I. destruct I as [I|[I|[]]]; [exact (T3 _ _ I)|]. injection I as <- <-.
    apply built_err in Bu. destruct Bu as [Q [Q'|Q']]; [|auto]. exfalso. apply Q'. unfold is_byte. lia.
  - injection H as <-. apply K; rewrite ?R; unfold unstored; cbn [t_pc t_todo t_log]; try lia; try discriminate; auto.
    intros a f' v Q. injection Q as <- <- <-. split; lia.
  - destruct (T2 alp f v eq_refl) as [V1 V2]. injection H as <-. apply K; rewrite ?R; unfold unstored; cbn [t_pc t_todo t_log];
      try lia; try discriminate; auto.
  - replace (255 <? sh_counter s) with false in H by lia. injection H as <-.
    apply K; rewrite ?R; unfold unstored; cbn [t_pc t_todo t_log]; try lia; try discriminate; auto.
  - exfalso. exact (T1 alp f eq_refl).
  - destruct (sh_lock s) as [k|]; [discriminate|]. injection H as <-.
    apply K; rewrite ?R; unfold unstored; cbn [t_pc t_todo t_log]; try lia; try discriminate; auto.
  - destruct rest as [|b r]; injection H as <-; apply K; rewrite ?R; unfold unstored; cbn [t_pc t_todo t_log]; try lia; try discriminate; auto.
    intros a e' I. apply in_app_iff in I. destruct I as [I|[I|[]]]; [exact (T3 _ _ I) | discriminate].
Qed.
Lemma remaining_start programs : remaining (map (fun p => mkThread p TIdle []) programs) = zlen (concat programs).
Proof.
  induction programs as [|p ps IH]; [reflexivity|]. cbn [map remaining fold_right concat]. unfold zlen in *.
  rewrite app_length. unfold remaining in IH. rewrite IH. unfold unstored, zlen. cbn. lia.
Qed.
Lemma no_wrap_no_error c programs sched s : 0 <= c -> c + zlen (concat programs) <= 255 ->
  threads_run (threads_start c programs) sched = Some s ->
  forall i t alp e, nth_error (sh_threads s) i = Some t -> In (Ok alp, Some e) (t_log t) -> e = ValueError /\ 255 < zlen alp.
Proof.
  intros C L R. assert (I : small (c + zlen (concat programs)) (threads_start c programs)).
  { split; [exact C|]. cbn [threads_start sh_counter sh_threads]. rewrite remaining_start. split; [lia|].
    intros i t E. rewrite nth_error_map in E. destruct (nth_error programs i); [|discriminate]. cbn in E. injection E as <-.
    cbn. split; [discriminate|]. split; [discriminate|]. intros ? ? []. }
  revert I R. generalize (threads_start c programs) as s0. generalize dependent (c + zlen (concat programs)). clear.
  intros B HB. induction sched as [|i sched IH]; intros s0 I R; cbn in R.
  - injection R as <-. intros j t alp e E. destruct I as (_ & _ & I). destruct (I j t E) as (_ & _ & K). apply K.
  - destruct (thread_step s0 i) as [s1|] eqn:E; [|discriminate]. eapply IH; [|exact R]. eapply small_step; eauto.
Qed.

(** ** Races on the counter *)
Lemma race_256 a b : is_payload a -> is_payload b -> exists sched s,
  threads_run (threads_start 255 [[Ok a]; [Ok b]]) sched = Some s
  /\ exists t0 t1, sh_threads s = [t0; t1] /\ t_log t1 = [(Ok b, Some ValueError)].
Proof.
  intros A B. exists [0; 0; 0; 0; 1; 1]%nat. cbn [threads_run]. unfold threads_start.
  cbn [map thread_step nth_error sh_threads t_pc t_todo t_log set_nth firstn skipn app sh_counter sh_lock sh_wire].
  rewrite (built_ok 255 a) by (assumption || (unfold is_byte; lia)).
  cbn [map thread_step nth_error sh_threads t_pc t_todo t_log set_nth firstn skipn app sh_counter sh_lock sh_wire].
  assert (built (255 + 1) b = Err ValueError) as -> by reflexivity.
  eexists. split; [reflexivity|]. eexists _, _. split; reflexivity.
Qed.
Definition write_steps (i : nat) (f : list Z) : list nat := repeat i (S (length f)).
Lemma set_set {A} (x y : A) l : forall i z, nth_error l i = Some z -> set_nth i y (set_nth i x l) = set_nth i y l.
Proof.
  induction l as [|a l IH]; intros [|i] z E; try discriminate; [reflexivity|]. cbn in E.
  change (set_nth (S i) x (a :: l)) with (a :: set_nth i x l).
  exact (f_equal (cons a) (IH i z E)).
Qed.
Lemma writes_all i alp f : forall s t, nth_error (sh_threads s) i = Some t -> t_pc t = TWrite alp f ->
  threads_run s (write_steps i f)
  = Some (mkShared (sh_counter s) None (sh_wire s ++ f)
            (set_nth i (mkThread (t_todo t) TIdle (t_log t ++ [(Ok alp, None)])) (sh_threads s))).
Proof.
  induction f as [|b f IH]; intros s t E P.
  - unfold write_steps. cbn. unfold thread_step. rewrite E, P. rewrite app_nil_r. reflexivity.
  - change (write_steps i (b :: f)) with (i :: write_steps i f). cbn [threads_run]. unfold thread_step at 1. rewrite E, P.
    rewrite (IH _ (mkThread (t_todo t) (TWrite alp f) (t_log t))).
    + cbn [sh_counter sh_wire sh_threads t_todo t_log]. rewrite <- app_assoc. cbn [app]. do 2 f_equal.
      eapply set_set. exact E.
    + cbn [sh_threads]. eapply nth_set_same. exact E.
    + reflexivity.
Qed.
Lemma run_app s a b : threads_run s (a ++ b) = match threads_run s a with Some s' => threads_run s' b | None => None end.
Proof.
  revert s. induction a as [|i a IH]; intro s; [reflexivity|]. cbn. destruct (thread_step s i); [apply IH | reflexivity].
Qed.
Lemma race_duplicate c a b : 0 <= c < 255 -> is_payload a -> is_payload b -> exists sched s,
  threads_run (threads_start c [[Ok a]; [Ok b]]) sched = Some s /\ all_done s
  /\ sh_wire s = frame c 1 a ++ frame c 1 b.
Proof.
  intros C A B.
  exists (([0; 0; 1; 1; 0; 1; 0; 1; 0; 1; 0]%nat ++ write_steps 0 (frame c 1 a)) ++ [1]%nat ++ write_steps 1 (frame c 1 b)).
  rewrite run_app, run_app. cbn [threads_run]. unfold threads_start.
  cbn [map thread_step nth_error sh_threads t_pc t_todo t_log set_nth firstn skipn app sh_counter sh_lock sh_wire].
  rewrite (built_ok c a) by (assumption || (unfold is_byte; lia)).
  cbn [map thread_step nth_error sh_threads t_pc t_todo t_log set_nth firstn skipn app sh_counter sh_lock sh_wire].
  rewrite (built_ok c b) by (assumption || (unfold is_byte; lia)).
  cbn [map thread_step nth_error sh_threads t_pc t_todo t_log set_nth firstn skipn app sh_counter sh_lock sh_wire].
  replace (255 <? c + 1) with false by lia.
  cbn [map thread_step nth_error sh_threads t_pc t_todo t_log set_nth firstn skipn app sh_counter sh_lock sh_wire].
  replace (255 <? c + 1) with false by lia.
  cbn [map thread_step nth_error sh_threads t_pc t_todo t_log set_nth firstn skipn app sh_counter sh_lock sh_wire].
  erewrite writes_all by reflexivity.
  cbn [map thread_step nth_error sh_threads t_pc t_todo t_log set_nth firstn skipn app sh_counter sh_lock sh_wire].
  cbn [threads_run].
  cbn [map thread_step nth_error sh_threads t_pc t_todo t_log set_nth firstn skipn app sh_counter sh_lock sh_wire].
  erewrite writes_all by reflexivity.
  eexists. split; [reflexivity|]. cbn [sh_threads set_nth firstn skipn app sh_wire]. split; [|reflexivity].
  repeat constructor.
Qed.

(** ** Progress *)
Lemma no_deadlock c programs sched s : Forall program_bytes programs ->
  threads_run (threads_start c programs) sched = Some s ->
  (forall i, thread_step s i = None) -> all_done s.
Proof.
  intros F R N. destruct (inv_run programs sched _ _ [] [] (start_inv c programs F) R) as (L & part & I).
  destruct I as [_ _ _ I4 _ _].
  assert (K : sh_lock s = None).
  { destruct (sh_lock s) as [k|] eqn:LK; [|reflexivity]. exfalso. destruct (I4 k eq_refl) as (t & alp & rest & E & P).
    specialize (N k). unfold thread_step in N. rewrite E, P in N. destruct rest; discriminate. }
  unfold all_done. apply Forall_forall. intros t T. apply In_nth_error in T. destruct T as [i E].
  specialize (N i). unfold thread_step in N. rewrite E, K in N.
  destruct (t_pc t) as [|alp|alp f|alp f v|alp f|alp f|alp f|alp rest]; try discriminate.
  - destruct (t_todo t) as [|[a|e] r]; [auto|discriminate|discriminate].
  - destruct (built (sh_counter s) alp); discriminate.
  - destruct rest; discriminate.
Qed.
Definition cost (a : res (list Z)) : nat := match a with Ok alp => length alp + 15 | Err _ => 1 end.
Definition costs (l : list (res (list Z))) : nat := list_sum (map cost l).
Definition left_to_do (t : Thread) : nat :=
  costs (t_todo t) + match t_pc t with
  | TIdle => 0
  | TBuild alp => length alp + 14
  | TLoad _ f => length f + 6
  | TStore _ f _ => length f + 5
  | TCheck _ f => length f + 4
  | TReset _ f => length f + 3
  | TLock _ f => length f + 2
  | TWrite _ r => length r + 1
  end.
Definition all_left (l : list Thread) : nat := list_sum (map left_to_do l).
Lemma all_left_set l : forall i t t', nth_error l i = Some t -> (left_to_do t' < left_to_do t)%nat ->
  (all_left (set_nth i t' l) < all_left l)%nat.
Proof.
  induction l as [|a l IH]; intros [|i] t t' E LT; try discriminate; cbn in E.
  - injection E as ->. unfold set_nth, all_left. cbn [firstn skipn app map list_sum fold_right]. unfold list_sum. cbn [fold_right]. lia.
  - change (set_nth (S i) t' (a :: l)) with (a :: set_nth i t' l). specialize (IH i t t' E LT).
    unfold all_left in *. cbn [map]. unfold list_sum in *. cbn [fold_right]. lia.
Qed.
Lemma built_length c alp f : built c alp = Ok f -> length f = (length alp + 7)%nat.
Proof.
  unfold built, build_serial_frame. cbn [sp_up rbind]. intros E.
  unfold yield1 in E. destruct ((0 <=? c) && (c <=? 255)) eqn:C; cbn [rbind] in E; [|discriminate].
  cbn [Z.leb Z.compare andb Pos.compare Pos.compare_cont rbind] in E.
  destruct ((0 <=? zlen alp) && (zlen alp <=? 255)) eqn:L; cbn [rbind] in E; [|discriminate].
  destruct (calculate_crc alp) as [hi lo]. cbn [snd] in E. injection E as <-. cbn [length app]. lia.
Qed.
Lemma step_left s i s' : thread_step s i = Some s' -> (all_left (sh_threads s') < all_left (sh_threads s))%nat.
Proof.
  intro H. unfold thread_step in H. destruct (nth_error (sh_threads s) i) as [t|] eqn:E; [|discriminate].
  destruct t as [todo pc log]. cbn [t_pc t_todo t_log] in H.
  destruct pc as [|alp|alp f|alp f v|alp f|alp f|alp f|alp rest].
  - destruct todo as [|[alp|e] r]; [discriminate| |]; injection H as <-; cbn [sh_threads]; eapply all_left_set;
      try exact E; unfold left_to_do, costs; cbn [t_pc t_todo map cost]; unfold list_sum; cbn [fold_right]; lia.
  - destruct (built (sh_counter s) alp) as [f|e] eqn:Bu; injection H as <-; cbn [sh_threads]; eapply all_left_set;
      try exact E; unfold left_to_do; cbn [t_pc t_todo]; [apply built_length in Bu|]; lia.
  - injection H as <-; cbn [sh_threads]; eapply all_left_set; try exact E; unfold left_to_do; cbn [t_pc t_todo]; lia.
  - injection H as <-; cbn [sh_threads]; eapply all_left_set; try exact E; unfold left_to_do; cbn [t_pc t_todo]; lia.
  - destruct (255 <? sh_counter s); injection H as <-; cbn [sh_threads]; eapply all_left_set; try exact E; unfold left_to_do; cbn [t_pc t_todo]; lia.
  - injection H as <-; cbn [sh_threads]; eapply all_left_set; try exact E; unfold left_to_do; cbn [t_pc t_todo]; lia.
  - destruct (sh_lock s); [discriminate|]. injection H as <-; cbn [sh_threads]; eapply all_left_set; try exact E; unfold left_to_do; cbn [t_pc t_todo]; lia.
  - destruct rest as [|b r]; injection H as <-; cbn [sh_threads]; eapply all_left_set; try exact E; unfold left_to_do; cbn [t_pc t_todo length]; lia.
Qed.
Lemma schedules_end c programs : exists n, forall sched s,
  threads_run (threads_start c programs) sched = Some s -> (length sched <= n)%nat.
Proof.
  exists (all_left (sh_threads (threads_start c programs))). intro sched.
  generalize (threads_start c programs) as s0. induction sched as [|i r IH]; intros s0 s R; cbn [length]; [lia|].
  cbn in R. destruct (thread_step s0 i) as [s1|] eqn:E; [|discriminate]. apply IH in R. apply step_left in E. lia.
Qed.
