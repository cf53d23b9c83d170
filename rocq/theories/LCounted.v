(** Lemmas for C107 *)
From Coq Require Import ZifyBool ZifyNat.
From Verif Require Import SCounted LSerialProps LTraffic LSend LChunk LReport.
Open Scope list_scope.
Open Scope Z_scope.
Ltac Zify.zify_post_hook ::= Z.div_mod_to_equations.

Lemma attempt_counter skip buf : Forall is_byte buf -> buf <> [] -> olist (fst (attempt skip buf)) = header_counter buf.
Proof.
  intros F N. destruct (attempt_cases skip buf F N) as [b r B H|b r B H| |r Fr L|c t len h l body Bc Bt Bn Bh Bl Fb L
    |c t h l payload rest Bc Bt Bh Bl P Fr E|c t payload rest Bc Bt P Fr]; cbn [fst olist].
  - unfold header_counter. destruct r as [|? [|? [|? [|? [|? [|? ?]]]]]]; try reflexivity.
    replace (b =? 192) with false by lia. reflexivity.
  - unfold header_counter. destruct r as [|? [|? [|? [|? [|? ?]]]]]; try reflexivity.
    replace (b =? 0) with false by lia. reflexivity.
  - reflexivity.
  - destruct r as [|? [|? [|? [|? [|? ?]]]]]; try reflexivity. cbn [length] in L. lia.
  - cbn [header_counter]. replace (len <=? zlen body) with false by lia. reflexivity.
  - cbn [header_counter]. rewrite zlen_app. pose proof (zlen_nonneg rest).
    replace (zlen payload <=? zlen payload + zlen rest) with true by lia. reflexivity.
  - unfold frame. destruct (calculate_crc payload) as [a b]. cbn [app header_counter]. rewrite zlen_app.
    pose proof (zlen_nonneg rest). replace (zlen payload <=? zlen payload + zlen rest) with true by lia. reflexivity.
Qed.
Lemma header_byte buf : Forall is_byte buf -> Forall is_byte (header_counter buf).
Proof.
  intros F. unfold header_counter. destruct buf as [|? [|? [|? [|? [|? [|? [|? ?]]]]]]]; try constructor.
  destruct (_ && _); constructor; [|constructor].
  repeat match goal with H : Forall _ (_ :: _) |- _ => inversion H; clear H; subst end. assumption.
Qed.
Lemma header_more buf x c : header_counter buf = [c] -> header_counter (buf ++ x) = [c].
Proof.
  unfold header_counter. destruct buf as [|s [|v [|k [|t [|len [|h [|l r]]]]]]]; try discriminate. cbn [app].
  rewrite zlen_app. pose proof (zlen_nonneg x).
  destruct (s =? 192), (v =? 0); cbn [andb]; try discriminate.
  destruct (Z.leb_spec len (zlen r)); [|discriminate].
  replace (len <=? zlen r + zlen x) with true by lia. auto.
Qed.
Lemma header_cases buf : header_counter buf = [] \/ exists c, header_counter buf = [c].
Proof.
  unfold header_counter. destruct buf as [|? [|? [|? [|? [|? [|? [|? ?]]]]]]]; auto. destruct (_ && _); eauto.
Qed.

(** ** What the rounds looked at *)
Lemma rounds_counted lib skip buf ms es cs pd cr fin : runs lib skip buf ms es cs pd cr fin ->
  forall n p, sp_skip p = skip -> sp_buf p = buf -> Forall is_byte buf -> (length buf <= n)%nat ->
  looked_at (snd (rounds n lib p)) = cs
  /\ times_put_off (snd (rounds n lib p)) = (if cr then 0 else zlen (header_counter fin)).
Proof.
  induction 1 as [|buf o e N E H|buf o e N E H1 H2|buf o t m n ms es cs pd cr fin N E R IH|buf o e ms es cs pd cr fin N E H1 H2 R IH];
    intros k p S B F L.
  - destruct k; cbn [rounds]; rewrite ?B; split; reflexivity.
  - destruct k as [|k]; [destruct buf; [congruence | cbn in L; lia]|].
    assert (N' : sp_buf p <> []) by congruence. pose proof (attempt_counter skip buf F N) as A. rewrite E in A. cbn [fst] in A.
    cbn [rounds]. destruct (sp_buf p) as [|b0 r0] eqn:Eb; [congruence|].
    rewrite <- Eb in *. rewrite one_round_eq by exact N'. rewrite S, B, E. cbv zeta. rewrite H. cbn [ro_out goes_on snd].
    unfold looked_at, times_put_off, total, put_off. cbn [flat_map fold_right ro_out ro_buffer]. rewrite app_nil_r, A. split; [reflexivity | lia].
  - destruct k as [|k]; [destruct buf; [congruence | cbn in L; lia]|].
    assert (N' : sp_buf p <> []) by congruence. pose proof (attempt_counter skip buf F N) as A. rewrite E in A. cbn [fst] in A.
    cbn [rounds]. destruct (sp_buf p) as [|b0 r0] eqn:Eb; [congruence|].
    rewrite <- Eb in *. rewrite one_round_eq by exact N'. rewrite S, B, E. cbv zeta. rewrite H1, H2. cbn [ro_out goes_on snd].
    unfold looked_at, times_put_off, total, put_off. cbn [flat_map fold_right ro_out ro_buffer]. rewrite app_nil_r, A. split; [reflexivity | lia].
  - destruct k as [|k]; [destruct buf; [congruence | cbn in L; lia]|].
    assert (N' : sp_buf p <> []) by congruence. pose proof (got_shorter _ _ _ _ _ _ F N E) as K.
    pose proof (attempt_counter skip buf F N) as A. rewrite E in A. cbn [fst] in A.
    destruct (IH k (set_buf (with_counters p (olist o)) (skipn (n / 8) buf))) as [I1 I2].
    { cbn [sp_skip set_buf]. rewrite counters_skip. exact S. } { reflexivity. } { apply skipn_bytes. exact F. }
    { rewrite skipn_length. lia. }
    cbn [rounds]. destruct (sp_buf p) as [|b0 r0] eqn:Eb; [congruence|].
    rewrite <- Eb in *. rewrite one_round_eq by exact N'. rewrite S, B, E. cbv zeta. cbn [ro_out goes_on].
    destruct (rounds k lib _) as [q rs]. cbn [snd] in *. unfold looked_at, times_put_off, total, put_off in *.
    cbn [flat_map fold_right ro_out ro_buffer]. rewrite I1, I2, A. split; [reflexivity | lia].
  - destruct k as [|k]; [destruct buf; [congruence | cbn in L; lia]|].
    assert (N' : sp_buf p <> []) by congruence. pose proof (skip_bad_shorter buf N) as K.
    pose proof (attempt_counter skip buf F N) as A. rewrite E in A. cbn [fst] in A.
    destruct (IH k (set_buf (with_counters p (olist o)) (fst (skip_bad buf)))) as [I1 I2].
    { cbn [sp_skip set_buf]. rewrite counters_skip. exact S. } { reflexivity. } { apply skip_bad_bytes. exact F. }
    { lia. }
    cbn [rounds]. destruct (sp_buf p) as [|b0 r0] eqn:Eb; [congruence|].
    rewrite <- Eb in *. rewrite one_round_eq by exact N'. rewrite S, B, E. cbv zeta. rewrite H1, H2. cbn [ro_out goes_on].
    destruct (rounds k lib _) as [q rs]. cbn [snd] in *. unfold looked_at, times_put_off, total, put_off in *.
    cbn [flat_map fold_right ro_out ro_buffer]. rewrite I1, I2, A. split; [reflexivity | lia].
Qed.
Lemma runs_counter_bytes lib skip buf ms es cs pd cr fin : runs lib skip buf ms es cs pd cr fin ->
  Forall is_byte buf -> Forall is_byte cs.
Proof.
  induction 1 as [|buf o e N E H|buf o e N E H1 H2|buf o t m n ms es cs pd cr fin N E R IH|buf o e ms es cs pd cr fin N E H1 H2 R IH];
    intros F; try constructor;
    (pose proof (attempt_counter skip buf F N) as A; rewrite E in A; cbn [fst] in A; rewrite A).
  - apply header_byte, F.
  - apply header_byte, F.
  - apply Forall_app. split; [apply header_byte, F | apply IH, skipn_bytes, F].
  - apply Forall_app. split; [apply header_byte, F | apply IH, skip_bad_bytes, F].
Qed.

Definition counts (p q : SParser) (l : list Z) : Prop :=
  sp_down q = last l (sp_down p) /\ sp_errs q = sp_errs p + jumps (sp_down p) l.

Lemma call_counted lib p x : byte_in p -> Forall is_byte x ->
  exists ms es cs pd cr fin, runs lib (sp_skip p) (sp_buf p ++ x) ms es cs pd cr fin
  /\ fst (sparse lib p x) = set_buf (with_counters p cs) fin
  /\ fst (parse_rounds lib p x) = set_buf (with_counters p cs) fin
  /\ looked_at (snd (parse_rounds lib p x)) = cs
  /\ times_put_off (snd (parse_rounds lib p x)) = (if cr then 0 else zlen (header_counter fin))
  /\ Forall is_byte cs.
Proof.
  intros F Fx. assert (Fa : Forall is_byte (sp_buf p ++ x)) by (apply Forall_app; auto).
  destruct (runs_total lib (sp_skip p) _ _ Fa (Nat.le_refl _)) as (ms & es & cs & pd & cr & fin & R).
  exists ms, es, cs, pd, cr, fin. split; [exact R|]. rewrite (sparse_runs _ _ _ _ _ _ _ _ _ F Fx R).
  split; [reflexivity|]. unfold parse_rounds. cbv zeta. cbn [sp_buf set_buf] in *.
  destruct (rounds_counted _ _ _ _ _ _ _ _ _ R (length (sp_buf p ++ x)) (set_buf p (sp_buf p ++ x)) eq_refl eq_refl Fa (Nat.le_refl _)) as [C1 C2].
  destruct (rounds_runs _ _ _ _ _ _ _ _ _ R (length (sp_buf p ++ x)) (set_buf p (sp_buf p ++ x)) eq_refl eq_refl Fa (Nat.le_refl _)) as (rs & RS & _).
  cbn [sp_buf set_buf] in *. rewrite RS in *. cbn [fst snd] in *.
  split; [rewrite counters_set, set_set; reflexivity|]. split; [exact C1|]. split; [exact C2|].
  exact (runs_counter_bytes _ _ _ _ _ _ _ _ _ R Fa).
Qed.
Lemma counted lib p x : byte_in p -> Forall is_byte x -> is_byte (sp_down p) ->
  let l := looked_at (snd (parse_rounds lib p x)) in
  sp_down (fst (sparse lib p x)) = last l (sp_down p)
  /\ sp_errs (fst (sparse lib p x)) = sp_errs p + jumps (sp_down p) l.
Proof.
  intros F Fx D. destruct (call_counted lib p x F Fx) as (ms & es & cs & pd & cr & fin & R & E1 & E2 & E3 & E4 & Fc).
  cbv zeta. rewrite E1, E3. exact (counters_errs cs p D Fc).
Qed.

(** ** Chunks *)
Lemma runs_first lib skip buf ms es cs pd cr fin : runs lib skip buf ms es cs pd cr fin -> Forall is_byte buf ->
  forall c, header_counter buf = [c] -> exists cs', cs = c :: cs'.
Proof.
  intros R F c H. destruct R as [|buf o e N E|buf o e N E|buf o t m n ms es cs pd cr fin N E|buf o e ms es cs pd cr fin N E];
    [discriminate| | | |];
    (pose proof (attempt_counter skip buf F N) as A; rewrite E in A; cbn [fst] in A; rewrite A, H; cbn [app]; eauto).
Qed.
Lemma runs_drop_counters lib skip x ms es cs pd cr fin : Forall is_byte x -> runs lib skip x ms es cs pd cr fin ->
  exists es' pd', runs lib skip (drop_c0 x) ms es' cs pd' cr fin.
Proof.
  intros F R. destruct x as [|b r]; [cbn [drop_c0]; eauto 6|]. cbn [drop_c0].
  destruct (Z.eqb_spec b 192) as [->|N]; [eauto 6|].
  assert (B : is_byte b) by (inversion F; assumption).
  inversion R as [|buf' o' e' N' E' H'|buf' o' e' N' E' H1' H2'|buf' o' t' m' n' ms1 es1 cs1 pd1 cr1 fin1 N' E' R1|buf' o' e' ms1 es1 cs1 pd1 cr1 fin1 N' E' H1' H2' R1]; subst;
  rewrite attempt_sync in E' by assumption; try (injection E' as <- <-; discriminate); try discriminate.
  injection E' as <- <-. rewrite skip_bad_buf in R1. cbn [olist app]. eauto.
Qed.
(** the counters of the second call follow those of the first, without the one
    of the frame that was put off *)
Lemma runs_chunk_counters lib skip buf ms1 es1 cs1 pd1 cr1 fin1 : runs lib skip buf ms1 es1 cs1 pd1 cr1 fin1 ->
  no_bool_eof es1 -> Forall is_byte buf -> cr1 = false ->
  forall x, Forall is_byte x -> forall ms2 es2 cs2 pd2 cr2 fin2, runs lib skip (fin1 ++ x) ms2 es2 cs2 pd2 cr2 fin2 ->
  exists c0 ms es pd, cs1 = c0 ++ header_counter fin1 /\ runs lib skip (buf ++ x) ms es (c0 ++ cs2) pd cr2 fin2.
Proof.
  induction 1 as [|buf o e N E H|buf o e N E H1 H2|buf o t m n ms es cs pd cr fin N E R IH|buf o e ms es cs pd cr fin N E H1 H2 R IH];
  intros NB F C x Fx ms2 es2 cs2 pd2 cr2 fin2 R2.
  - exists [], ms2, es2, pd2. auto.
  - pose proof (attempt_counter skip buf F N) as A. rewrite E in A. cbn [fst] in A.
    exists [], ms2, es2, pd2. cbn [app]. auto.
  - discriminate.
  - pose proof (got_shorter _ _ _ _ _ _ F N E) as K.
    assert (Nx : buf ++ x <> []) by (intros X; apply app_eq_nil in X; tauto).
    assert (Ex : attempt skip (buf ++ x) = (o, Ok (t, m, n))) by (apply attempt_stable; auto; exact Logic.I).
    assert (Sx : skipn (n / 8) buf ++ x = skipn (n / 8) (buf ++ x)).
    { rewrite skipn_app. replace (n / 8 - length buf)%nat with 0%nat by lia. reflexivity. }
    destruct (IH NB (skipn_bytes _ _ F) C x Fx _ _ _ _ _ _ R2) as (c0 & ms' & es' & pd' & -> & R'). rewrite Sx in R'.
    exists (olist o ++ c0). do 3 eexists. split; [apply app_assoc|]. rewrite <- app_assoc. eapply runs_got; eauto.
  - assert (Nx : buf ++ x <> []) by (intros X; apply app_eq_nil in X; tauto).
    inversion NB as [|? ? Be NB']; subst. cbn [pe_exn] in Be.
    assert (Ex : attempt skip (buf ++ x) = (o, Err e)) by (apply attempt_stable; auto; eapply eof_cases; eauto).
    destruct (IH NB' (skip_bad_bytes _ F) eq_refl x Fx _ _ _ _ _ _ R2) as (c0 & ms' & es' & pd' & -> & R').
    destruct buf as [|b r]; [congruence|]. cbn [app] in *. rewrite skip_bad_buf in R', R.
    assert (Fr : Forall is_byte r) by (inversion F; assumption).
    exists (olist o ++ c0).
    destruct (drop_c0 r) as [|d dr] eqn:Ed.
    + cbn [app] in R'. apply runs_drop_counters in R'; [|exact Fx]. destruct R' as (es'' & pd'' & R').
      do 3 eexists. split; [apply app_assoc|]. rewrite <- app_assoc. eapply runs_skip; eauto.
      rewrite skip_bad_buf, drop_c0_app, Ed. exact R'.
    + do 3 eexists. split; [apply app_assoc|]. rewrite <- app_assoc. eapply runs_skip; eauto.
      rewrite skip_bad_buf, drop_c0_app, Ed. exact R'.
Qed.
Lemma total_app f a b : total f (a ++ b) = total f a + total f b.
Proof. unfold total. induction a as [|x a IH]; cbn [app fold_right]; [lia|]. rewrite IH. lia. Qed.
Lemma again c : is_byte c -> (c =? counter_after c) = false.
Proof. unfold is_byte, counter_after. lia. Qed.
Lemma jumps_app a b : forall d, jumps d (a ++ b) = jumps d a + jumps (last a d) b.
Proof.
  induction a as [|x a IH]; intros d; cbn [app jumps]; [cbn [last]; lia|]. rewrite IH.
  replace (last (x :: a) d) with (last a x); [lia|]. destruct a as [|y a]; [reflexivity|].
  clear. cbn [last]. revert y. induction a as [|z a IH]; intros y; [reflexivity|]. apply IH.
Qed.
Lemma last_app_cons (a b : list Z) c d : last (a ++ c :: b) d = last (c :: b) d.
Proof. induction a as [|x a IH]; [reflexivity|]. cbn [app]. rewrite <- IH. cbn [last]. destruct (a ++ c :: b) eqn:E; [destruct a; discriminate | reflexivity]. Qed.
Lemma last_skip (a b : list Z) c d : last (c :: b) d = last (c :: b) (last a d).
Proof. revert c. induction b as [|x b IH]; intros c; [reflexivity|]. exact (IH x). Qed.

Lemma counters_shape (c0 w cs2 : list Z) d : (w = [] \/ exists c cs', w = [c] /\ cs2 = c :: cs' /\ is_byte c) ->
  last ((c0 ++ w) ++ cs2) d = last (c0 ++ cs2) d
  /\ jumps d ((c0 ++ w) ++ cs2) = jumps d (c0 ++ cs2) + zlen w.
Proof.
  intros [-> | (c & cs' & -> & -> & B)].
  - rewrite app_nil_r. change (zlen (@nil Z)) with 0. split; [reflexivity | lia].
  - rewrite <- app_assoc. cbn [app]. split.
    + rewrite (last_app_cons c0 (c :: cs')), (last_app_cons c0 cs'). reflexivity.
    + rewrite !jumps_app. cbn [jumps]. rewrite again by exact B. change (zlen [c]) with 1. lia.
Qed.

Lemma last_last (a b : list Z) d : last b (last a d) = last (a ++ b) d.
Proof. destruct b as [|c b]; [rewrite app_nil_r; reflexivity|]. rewrite last_app_cons. symmetry. apply last_skip. Qed.
Lemma feeds_counted lib p chunks p' ms es : feeds lib p chunks p' ms es ->
  byte_in p -> Forall (Forall is_byte) chunks -> no_bool_eof es -> is_byte (sp_down p) -> chunks <> [] ->
  exists ms' es' cs pd, runs lib (sp_skip p) (sp_buf p ++ concat chunks) ms' es' cs pd false (sp_buf p')
   /\ sp_down p' = last cs (sp_down p)
   /\ sp_errs p' + zlen (header_counter (sp_buf p')) = sp_errs p + jumps (sp_down p) cs + times_put_off (all_rounds lib p chunks).
Proof.
  induction 1 as [p|p c p1 r cs p2 ms es E Fd IH]; intros B F NB D Nn; [congruence|].
  inversion F as [|? ? Fc Fcs]; subst.
  destruct (call_counted lib p c B Fc) as (ms1 & es1 & cs1 & pd1 & cr1 & fin1 & R1 & E1 & E2 & _ & E4 & Fcs1).
  pose proof (sparse_runs _ _ _ _ _ _ _ _ _ B Fc R1) as E'. rewrite E in E'.
  injection E' as -> Er. destruct cr1; [discriminate|]. injection Er as ->. cbn [pr_msgs pr_errors] in *.
  assert (Fb : Forall is_byte (sp_buf p ++ c)) by (apply Forall_app; auto).
  assert (Bfin : Forall is_byte fin1) by (eapply runs_bytes; [exact R1 | exact Fb]).
  apply Forall_app in NB. destruct NB as [NB1 NB2].
  destruct (counters_errs cs1 p D Fcs1) as [Cd Ce].
  destruct (parse_rounds lib p c) as [q1 rs1] eqn:PR. cbn [fst snd] in *. subst q1.
  destruct cs as [|c2 cs].
  - inversion Fd; subst. cbn [concat all_rounds]. rewrite PR. rewrite !app_nil_r. cbn [set_buf sp_buf sp_down sp_errs].
    exists ms1, es1, cs1, pd1. split; [exact R1|]. split; [exact Cd|]. rewrite E4. lia.
  - assert (D1 : is_byte (sp_down (set_buf (with_counters p cs1) fin1))).
    { cbn [set_buf sp_down]. rewrite Cd. clear - D Fcs1. revert D. generalize (sp_down p). induction Fcs1 as [|x l Hx Fl IHl]; intros d D; [exact D|].
      destruct l; [exact Hx|]. cbn [last] in *. apply IHl. exact D. }
    specialize (IH Bfin Fcs NB2 D1 ltac:(discriminate)). rewrite set_counters_skip in IH. cbn [set_buf sp_buf sp_down sp_errs] in IH.
    destruct IH as (ms2 & es2 & cs2 & pd2 & R2 & Dn & En).
    assert (Fcc : Forall is_byte (concat (c2 :: cs))) by (apply Forall_concat; exact Fcs).
    destruct (runs_chunk_counters _ _ _ _ _ _ _ _ _ R1 NB1 Fb eq_refl _ Fcc _ _ _ _ _ _ R2) as (c0 & ms3 & es3 & pd3 & Ecs & R3).
    exists ms3, es3, (c0 ++ cs2), pd3. cbn [concat] in *. rewrite app_assoc. split; [exact R3|].
    assert (W : header_counter fin1 = [] \/ exists k cs', header_counter fin1 = [k] /\ cs2 = k :: cs' /\ is_byte k).
    { destruct (header_cases fin1) as [W|[k W]]; [auto|]. right. exists k.
      destruct (runs_first _ _ _ _ _ _ _ _ _ R2 ltac:(apply Forall_app; auto) k (header_more _ _ _ W)) as [cs' Ek]. exists cs'.
      refine (conj W (conj Ek _)). pose proof (header_byte fin1 Bfin) as X. rewrite W in X. inversion X; assumption. }
    destruct (counters_shape c0 (header_counter fin1) cs2 (sp_down p) W) as [S1 S2]. rewrite <- Ecs in S1, S2.
    split.
    + rewrite Dn, Cd, last_last. exact S1.
    + cbn [all_rounds]. rewrite PR. unfold times_put_off in *. rewrite total_app, E4. rewrite jumps_app in S2.
      rewrite Cd, Ce in En. cbn [all_rounds] in En. lia.
Qed.

(** counted in chunks and in one call *)
Lemma chunks_counted lib p chunks p' ms es : byte_in p -> Forall (Forall is_byte) chunks -> chunks <> [] ->
  lib = true \/ sp_skip p = true -> is_byte (sp_down p) -> feeds lib p chunks p' ms es ->
  let q := fst (sparse lib p (concat chunks)) in
  sp_down p' = sp_down q
  /\ sp_errs p' = sp_errs q + (times_put_off (all_rounds lib p chunks) - times_put_off (snd (parse_rounds lib p (concat chunks)))).
Proof.
  intros B F N C D H. cbv zeta.
  destruct (feeds_counted _ _ _ _ _ _ H B F (feeds_inv _ _ _ _ _ _ H B F C) D N) as (ms' & es' & cs & pd & R & Dn & En).
  assert (Fcc : Forall is_byte (concat chunks)) by (apply Forall_concat; exact F).
  destruct (call_counted lib p (concat chunks) B Fcc) as (ms1 & es1 & cs1 & pd1 & cr1 & fin1 & R1 & E1 & E2 & _ & E4 & Fcs1).
  destruct (runs_det _ _ _ _ _ _ _ _ _ R _ _ _ _ _ _ R1) as (_ & _ & <- & _ & <- & <-).
  destruct (counters_errs cs p D Fcs1) as [Cd Ce]. rewrite E1, E4. cbn [set_buf sp_down sp_errs]. rewrite Cd, Ce. split; [exact Dn | lia].
Qed.
Lemma one_call_least lib p chunks p' ms es : byte_in p -> Forall (Forall is_byte) chunks -> chunks <> [] ->
  lib = true \/ sp_skip p = true -> is_byte (sp_down p) -> feeds lib p chunks p' ms es ->
  sp_errs (fst (sparse lib p (concat chunks))) <= sp_errs p'.
Proof.
  intros B F N C D H. destruct (chunks_counted _ _ _ _ _ _ B F N C D H) as [_ ->].
  assert (K : forall rs, 0 <= times_put_off rs).
  { induction rs as [|r rs IH]; [discriminate|]. unfold times_put_off, total in *. cbn [fold_right].
    assert (0 <= put_off r) by (unfold put_off; destruct (ro_out r); try lia; apply zlen_nonneg). lia. }
  destruct (feeds_counted _ _ _ _ _ _ H B F (feeds_inv _ _ _ _ _ _ H B F C) D N) as (ms' & es' & cs & pd & R & _ & _).
  assert (Fcc : Forall is_byte (concat chunks)) by (apply Forall_concat; exact F).
  destruct (call_counted lib p (concat chunks) B Fcc) as (ms1 & es1 & cs1 & pd1 & cr1 & fin1 & R1 & _ & _ & _ & E4 & _).
  destruct (runs_det _ _ _ _ _ _ _ _ _ R _ _ _ _ _ _ R1) as (_ & _ & <- & _ & <- & <-). rewrite E4.
  enough (zlen (header_counter (sp_buf p')) <= times_put_off (all_rounds lib p chunks)) by lia.
  clear - H B F N K. induction H as [p|p c p1 r cs p2 ms es E Fd IH]; [congruence|].
  inversion F as [|? ? Fc Fcs]; subst.
  destruct (call_counted lib p c B Fc) as (ms1 & es1 & cs1 & pd1 & cr1 & fin1 & R1 & E1 & E2 & _ & E4 & Fcs1).
  pose proof (sparse_runs _ _ _ _ _ _ _ _ _ B Fc R1) as E'. rewrite E in E'.
  injection E' as -> Er. destruct cr1; [discriminate|]. injection Er as ->.
  destruct (parse_rounds lib p c) as [q1 rs1] eqn:PR. cbn [fst snd] in *. subst q1.
  cbn [all_rounds]. rewrite PR. unfold times_put_off in *. rewrite total_app.
  destruct cs as [|c2 cs].
  - inversion Fd; subst. cbn [all_rounds set_buf sp_buf]. rewrite E4. change (total put_off []) with 0. lia.
  - assert (Bfin : byte_in (set_buf (with_counters p cs1) fin1)).
    { unfold byte_in. cbn [set_buf sp_buf]. eapply runs_bytes; [exact R1 | apply Forall_app; auto]. }
    specialize (IH Bfin Fcs ltac:(discriminate)). pose proof (K rs1). lia.
Qed.

(** ** Frames that are not accepted *)
Lemma hit_first lib skip d rest ms es cs pd cr fin : hit_ok d -> Forall is_byte rest -> (rest = [] \/ hd 0 rest = 192) ->
  runs lib skip rest ms es cs pd cr fin ->
  runs lib skip (hit_bytes d ++ rest) ms (mkPErr ParseError (zlen (hit_bytes d)) :: es) (h_counter d :: cs) pd cr fin.
Proof.
  intros (Fb & E & Nc) Fr Hr R. unfold hit_bytes in *. destruct d as [c t h l payload]. cbn [h_counter h_type h_crc1 h_crc2 h_payload tl] in *.
  assert (K : is_byte c /\ is_byte t /\ is_byte (zlen payload) /\ is_byte h /\ is_byte l /\ Forall is_byte payload).
  { repeat match goal with H : Forall _ (_ :: _) |- _ => inversion H; clear H; subst end. auto 10. }
  destruct K as (Bc & Bt & Bn & Bh & Bl & Fp).
  assert (P : is_payload payload) by (split; [exact Fp | unfold is_byte in Bn; lia]).
  assert (A : attempt skip ((192 :: 0 :: c :: t :: zlen payload :: h :: l :: payload) ++ rest) = (Some c, Err ParseError)).
  { cbn [app]. rewrite attempt_full by assumption. destruct (calculate_crc payload) as [a b]. cbn [fst snd].
    destruct (Z.eqb_spec a h) as [->|]; [|reflexivity]. destruct (Z.eqb_spec b l) as [->|]; [congruence | reflexivity]. }
  assert (Dr : drop_c0 rest = rest).
  { destruct Hr as [-> | Hr]; [reflexivity|]. destruct rest as [|b r]; [reflexivity|]. cbn [hd] in Hr. subst b. reflexivity. }
  assert (Dd : forall w, Forall (fun b => b <> 192) w -> drop_c0 (w ++ rest) = rest).
  { induction 1 as [|b w Hb Fw IH]; [exact Dr|]. cbn [app drop_c0]. replace (b =? 192) with false by lia. exact IH. }
  change (h_counter _ :: cs) with (olist (Some c) ++ cs) || change (c :: cs) with (olist (Some c) ++ cs).
  set (w := 0 :: c :: t :: zlen payload :: h :: l :: payload) in *.
  change (192 :: 0 :: c :: t :: zlen payload :: h :: l :: payload) with (192 :: w) in *.
  cbn [app] in *.
  assert (Sk : fst (skip_bad (192 :: w ++ rest)) = rest) by (rewrite skip_bad_buf; apply Dd; exact Nc).
  assert (Sn : snd (skip_bad (192 :: w ++ rest)) = zlen (192 :: w)).
  { rewrite skip_bad_count, (Dd w Nc). rewrite !zlen_cons, zlen_app. lia. }
  rewrite <- Sn. eapply runs_skip; [discriminate | exact A | reflexivity | reflexivity |]. rewrite Sk. exact R.
Qed.
Lemma hit_partial skip d y e : hit_ok d -> hit_bytes d = y ++ e -> y <> [] -> e <> [] -> attempt skip y = (None, Err ReadError).
Proof.
  intros (Fb & _ & _) E Ny Ne. unfold hit_bytes in *. destruct d as [c t h l payload]. cbn [h_counter h_type h_crc1 h_crc2 h_payload] in *.
  assert (K : is_byte c /\ is_byte t /\ is_byte (zlen payload) /\ is_byte h /\ is_byte l /\ Forall is_byte payload).
  { repeat match goal with H : Forall _ (_ :: _) |- _ => inversion H; clear H; subst end. auto 10. }
  destruct K as (Bc & Bt & Bn & Bh & Bl & Fp).
  destruct y as [|y0 y]; [congruence|]. cbn [app] in E. injection E as <- E.
  destruct y as [|y1 y]; [unfold attempt; rewrite header_one; reflexivity|]. cbn [app] in E. injection E as <- E.
  destruct y as [|y2 y]; [apply attempt_short; [constructor | cbn; lia]|]. cbn [app] in E. injection E as <- E.
  destruct y as [|y3 y]; [apply attempt_short; [repeat constructor; assumption || apply Bc | cbn; lia]|]. cbn [app] in E. injection E as <- E.
  destruct y as [|y4 y]; [apply attempt_short; [repeat (apply Forall_cons || apply Forall_nil); assumption | cbn; lia]|]. cbn [app] in E. injection E as <- E.
  destruct y as [|y5 y]; [apply attempt_short; [repeat (apply Forall_cons || apply Forall_nil); assumption | cbn; lia]|]. cbn [app] in E. injection E as <- E.
  destruct y as [|y6 y]; [apply attempt_short; [repeat (apply Forall_cons || apply Forall_nil); assumption | cbn; lia]|]. cbn [app] in E. injection E as <- E.
  subst payload. apply Forall_app in Fp. apply attempt_wait; try assumption; [apply Fp|].
  rewrite zlen_app. destruct e; [congruence|]. rewrite zlen_cons. pose proof (zlen_nonneg e). lia.
Qed.
Lemma arrival_front skip l : Forall (arrival_ok skip) l -> arriving l = [] \/ hd 0 (arriving l) = 192.
Proof.
  intros F. destruct l as [|[x|d] l]; [left; reflexivity| |]; right; unfold arriving; cbn [flat_map arrival_bytes].
  - unfold sent_frame, frame. destruct (calculate_crc _). reflexivity.
  - reflexivity.
Qed.
Lemma arriving_bytes skip l : Forall (arrival_ok skip) l -> Forall is_byte (arriving l).
Proof.
  induction 1 as [|[x|d] l H Hl IH]; [constructor| |]; unfold arriving; cbn [flat_map arrival_bytes]; apply Forall_app; split; try exact IH.
  - eapply sent_frame_bytes. exact H.
  - apply H.
Qed.
Lemma arrival_head a : exists r, arrival_bytes a = 192 :: r.
Proof. destruct a as [x|d]; cbn [arrival_bytes]; [apply sent_frame_head | eexists; reflexivity]. Qed.
Lemma begun_nil l : begun l [].
Proof. destruct l as [|a l]; [reflexivity|]. destruct (arrival_head a) as [r E]. exists (192 :: r). split; [discriminate | exact E]. Qed.
Lemma begun_end l fin : begun l fin -> fin = arriving l -> l = [].
Proof.
  destruct l as [|a l]; [reflexivity|]. intros (e & N & E) ->. exfalso. unfold arriving in E. cbn [flat_map] in E.
  apply (f_equal (@length Z)) in E. rewrite !app_length in E. destruct e; [congruence | cbn [length] in E; lia].
Qed.
Lemma runs_arriving lib skip l : Forall (arrival_ok skip) l -> forall y z, y ++ z = arriving l ->
  exists l1 l2 pd fin, l = l1 ++ l2 /\ fin ++ z = arriving l2 /\
    runs lib skip y (delivered (accepted l1)) (refused l1) (map arrival_counter l1) pd false fin
    /\ begun l2 fin.
Proof.
  induction 1 as [|a l H Hl IH]; intros y z E; unfold arriving in E; cbn [flat_map] in E; [|fold (arriving l) in E].
  - apply app_eq_nil in E. destruct E as [-> ->]. exists [], [], 0, []. repeat split. constructor.
  - assert (Step : forall rest ms es cs pd fin, Forall is_byte rest -> (rest = [] \/ hd 0 rest = 192) -> runs lib skip rest ms es cs pd false fin ->
      exists pd', runs lib skip (arrival_bytes a ++ rest) (delivered (accepted [a]) ++ ms) (refused [a] ++ es) (arrival_counter a :: cs) pd' false fin).
    { intros rest ms es cs pd fin Fr Hr R. destruct a as [x|d]; cbn [accepted refused flat_map delivered map app arrival_counter arrival_bytes arrival_ok] in *.
      - eexists. apply runs_sent; eassumption.
      - eexists. apply hit_first; eassumption. }
    destruct (app_split _ _ _ _ E) as [(e & Es & ->) | (e & -> & Ed)].
    + destruct e as [|e0 e'].
      * rewrite app_nil_r in Es. cbn [app] in *. subst y.
        destruct (Step [] [] [] [] 0 [] (Forall_nil _) (or_introl eq_refl) (runs_empty lib skip)) as [pd' R].
        rewrite !app_nil_r in R. exists [a], l, pd', []. refine (conj eq_refl (conj eq_refl (conj R _))).
        apply begun_nil.
      *
        destruct y as [|y0 y'].
        -- exists [], (a :: l), 0, []. cbn [app] in *. refine (conj eq_refl (conj _ (conj _ (begun_nil _)))); [|constructor].
           unfold arriving. cbn [flat_map]. rewrite Es. reflexivity.
        -- exists [], (a :: l), 0, (y0 :: y'). refine (conj eq_refl (conj E (conj _ (ex_intro _ (e0 :: e') (conj _ Es))))); [|discriminate].
           change (map arrival_counter []) with (olist (@None Z)).
           apply (runs_wait lib skip _ None ReadError); [discriminate | | reflexivity].
           destruct a as [x|d]; cbn [arrival_ok arrival_bytes] in *.
           ++ destruct H as (Bc & Bt & P & _).
              apply (partial_frame skip (s_counter x) (s_type x) (s_payload x) (y0 :: y') (e0 :: e')); assumption || discriminate.
           ++ apply (hit_partial skip d (y0 :: y') (e0 :: e')); try assumption; discriminate.
    + symmetry in Ed. destruct (IH _ _ Ed) as (l1 & l2 & pd & fin & -> & Ef & R & Z).
      assert (Fw : Forall is_byte (e ++ z)) by (rewrite Ed; eapply arriving_bytes; eassumption). apply Forall_app in Fw.
      assert (Hr : e = [] \/ hd 0 e = 192).
      { destruct e as [|e0 e]; [left; reflexivity|]. right. destruct (arrival_front _ _ Hl) as [X|X]; rewrite <- Ed in X; [discriminate | exact X]. }
      destruct (Step e _ _ _ _ _ (proj1 Fw) Hr R) as [pd' R']. exists (a :: l1), l2, pd', fin. refine (conj eq_refl (conj Ef (conj _ Z))).
      replace (accepted (a :: l1)) with (accepted [a] ++ accepted l1) by (unfold accepted; cbn [flat_map]; rewrite app_nil_r; reflexivity).
      replace (refused (a :: l1)) with (refused [a] ++ refused l1) by (unfold refused; cbn [flat_map]; rewrite app_nil_r; reflexivity).
      unfold delivered in *. rewrite map_app. exact R'.
Qed.
Lemma accepted_app a b : accepted (a ++ b) = accepted a ++ accepted b.
Proof. apply flat_map_app. Qed.
Lemma refused_app a b : refused (a ++ b) = refused a ++ refused b.
Proof. apply flat_map_app. Qed.
Lemma feeds_arriving lib chunks : forall p l, Forall (arrival_ok (sp_skip p)) l -> sp_buf p ++ concat chunks = arriving l -> chunks <> [] ->
  feeds lib p chunks (set_buf (with_counters p (map arrival_counter l)) []) (delivered (accepted l)) (refused l).
Proof.
  induction chunks as [|c cs IH]; intros p l F E N; [congruence|]. cbn [concat] in E. rewrite app_assoc in E.
  pose proof (arriving_bytes _ _ F) as Fb. rewrite <- E in Fb. apply Forall_app in Fb. destruct Fb as [Fb Fcc].
  pose proof (proj1 (Forall_app _ _ _) Fb) as [Bp Bc].
  destruct (runs_arriving lib (sp_skip p) l F _ _ E) as (l1 & l2 & pd & fin & -> & Ef & R & Z).
  pose proof (sparse_runs _ _ _ _ _ _ _ _ _ Bp Bc R) as S1. cbv iota in S1.
  apply Forall_app in F. destruct F as [F1 F2].
  rewrite accepted_app, refused_app. unfold delivered. rewrite !map_app. fold (delivered (accepted l1)) (delivered (accepted l2)).
  destruct cs as [|c2 cs].
  - cbn [concat] in *. rewrite app_nil_r in Ef. pose proof (begun_end _ _ Z Ef) as ->. cbn in Ef. subst fin.
    change (map arrival_counter []) with (@nil BinNums.Z). rewrite (app_nil_r (map arrival_counter l1)).
    exact (feeds_cons lib p c _ _ [] _ [] [] S1 (feeds_nil lib _)).
  - rewrite counters_app.
    assert (K : set_buf (with_counters (with_counters p (map arrival_counter l1)) (map arrival_counter l2)) [] =
      set_buf (with_counters (set_buf (with_counters p (map arrival_counter l1)) fin) (map arrival_counter l2)) [])
      by (rewrite counters_set, set_set; reflexivity). rewrite K.
    assert (Fd : feeds lib (set_buf (with_counters p (map arrival_counter l1)) fin) (c2 :: cs)
      (set_buf (with_counters (set_buf (with_counters p (map arrival_counter l1)) fin) (map arrival_counter l2)) [])
      (delivered (accepted l2)) (refused l2)).
    { apply IH; [rewrite set_counters_skip; exact F2 | exact Ef | discriminate]. }
    exact (feeds_cons lib p c _ _ (c2 :: cs) _ _ _ S1 Fd).
Qed.
Lemma arrivals lib p chunks l : Forall (arrival_ok (sp_skip p)) l -> sp_buf p ++ concat chunks = arriving l -> chunks <> [] -> is_byte (sp_down p) ->
  exists p', feeds lib p chunks p' (delivered (accepted l)) (refused l) /\ sp_buf p' = []
    /\ sp_down p' = last (map arrival_counter l) (sp_down p)
    /\ sp_errs p' = sp_errs p + jumps (sp_down p) (map arrival_counter l).
Proof.
  intros F E N D. eexists. split; [apply feeds_arriving; eassumption|]. split; [reflexivity|].
  cbn [set_buf sp_down sp_errs]. apply counters_errs; [exact D|].
  clear - F. induction F as [|[x|d] l H Hl IH]; cbn [map]; constructor; try exact IH; cbn [arrival_counter].
  - apply H.
  - destruct H as (H & _). unfold hit_bytes in H. repeat match goal with H : Forall _ (_ :: _) |- _ => inversion H; clear H; subst end. assumption.
Qed.
Lemma jumps_in_step l : forall d, (forall i a, nth_error l i = Some a -> a = (d + 1 + Z.of_nat i) mod 256) -> jumps d l = 0.
Proof.
  induction l as [|c l IH]; intros d H; [reflexivity|]. cbn [jumps].
  pose proof (H 0%nat c eq_refl) as H0. rewrite IH.
  - unfold counter_after. replace (c =? (d + 1) mod 256) with true by lia. reflexivity.
  - intros i a Hi. rewrite (H (S i) a Hi), H0. lia.
Qed.
Lemma sizes l : (length (delivered (accepted l)) + length (refused l) = length l)%nat.
Proof.
  unfold delivered. rewrite map_length. induction l as [|[x|d] l IH]; [reflexivity| |]; unfold accepted, refused in *; cbn [flat_map app length]; lia.
Qed.
Lemma arrivals_in_step lib p chunks l : Forall (arrival_ok (sp_skip p)) l -> sp_buf p ++ concat chunks = arriving l -> chunks <> [] -> is_byte (sp_down p) ->
  (forall i c, nth_error (map arrival_counter l) i = Some c -> c = (sp_down p + 1 + Z.of_nat i) mod 256) ->
  exists p' msgs errs, feeds lib p chunks p' msgs errs /\ sp_errs p' = sp_errs p
    /\ (length msgs + length errs = length l)%nat /\ msgs = delivered (accepted l).
Proof.
  intros F E N D S. destruct (arrivals lib p chunks l F E N D) as (p' & H & _ & _ & Er). exists p'. do 2 eexists. split; [exact H|].
  rewrite (jumps_in_step _ _ S) in Er. split; [lia|]. split; [apply sizes | reflexivity].
Qed.
Lemma noise lib p chunks d l : hit_ok d -> Forall (sent_ok (sp_skip p)) l -> l <> [] -> is_byte (sp_down p) ->
  (forall i c, nth_error (map s_counter l) i = Some c -> c = (sp_down p + 1 + Z.of_nat i) mod 256) ->
  sp_buf p ++ concat chunks = hit_bytes d ++ wire l -> chunks <> [] ->
  exists p' errs, feeds lib p chunks p' (delivered l) errs
    /\ sp_errs p' = sp_errs p + (if (h_counter d =? sp_down p) || (h_counter d =? counter_after (sp_down p)) then 1 else 2).
Proof.
  intros H F Nl D S E N.
  assert (Ew : forall l, flat_map arrival_bytes (map Whole l) = wire l).
  { unfold wire. induction l0 as [|x l0 IH]; [reflexivity|]. cbn [map flat_map arrival_bytes]. rewrite IH. reflexivity. }
  assert (Ea : forall l, accepted (map Whole l) = l).
  { unfold accepted. induction l0 as [|x l0 IH]; [reflexivity|]. cbn [map flat_map app]. rewrite IH. reflexivity. }
  assert (Ec : map arrival_counter (map Whole l) = map s_counter l) by (rewrite map_map; reflexivity).
  destruct (arrivals lib p chunks (Hurt d :: map Whole l)) as (p' & Fd & _ & _ & Er); try assumption.
  { constructor; [exact H|]. apply Forall_map. exact F. }
  { unfold arriving. cbn [flat_map arrival_bytes]. rewrite Ew. exact E. }
  exists p', (refused (Hurt d :: map Whole l)). cbn [map arrival_counter] in Er. rewrite Ec in Er.
  unfold accepted in Fd. cbn [flat_map app] in Fd. fold (accepted (map Whole l)) in Fd. rewrite Ea in Fd. split; [exact Fd|]. rewrite Er.
  assert (Bd : is_byte (h_counter d)).
  { destruct H as (H & _). unfold hit_bytes in H. repeat match goal with H : Forall _ (_ :: _) |- _ => inversion H; clear H; subst end. assumption. }
  clear - D S Nl Bd. destruct l as [|x l]; [congruence|]. cbn [map] in *. pose proof (S 0%nat _ eq_refl) as S0.
  cbn [jumps]. rewrite (jumps_in_step (map s_counter l) (s_counter x)).
  - unfold is_byte, counter_after in *. rewrite S0.
    destruct (Z.eqb_spec (h_counter d) (sp_down p)), (Z.eqb_spec (h_counter d) ((sp_down p + 1) mod 256)); cbn [orb];
    destruct (Z.eqb_spec ((sp_down p + 1 + Z.of_nat 0) mod 256) ((h_counter d + 1) mod 256)); lia.
  - intros i c Hi. rewrite (S (Datatypes.S i) c Hi), S0. lia.
Qed.
