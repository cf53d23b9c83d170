(** Chunking, delivery of well-formed traffic, what is retained. *)
From Coq Require Import ZifyBool ZifyNat.
From Verif Require Export LRun.
Ltac Zify.zify_post_hook ::= Z.div_mod_to_equations.

Lemma runs_bytes lib skip buf ms es cs pd cr fin : runs lib skip buf ms es cs pd cr fin ->
  Forall is_byte buf -> Forall is_byte fin.
Proof.
  induction 1 as [|buf o e N E H|buf o e N E H1 H2|buf o t m n ms es cs pd cr fin N E R IH|buf o e ms es cs pd cr fin N E H1 H2 R IH]; intros F; auto.
  - apply IH. apply skipn_bytes. exact F.
  - apply IH. apply skip_bad_bytes. exact F.
Qed.
Lemma with_counters_buf p cs b : sp_buf (set_buf (with_counters p cs) b) = b.
Proof. reflexivity. Qed.

(** ** Chunk invariance *)
Definition no_bool_eof (es : list PErr) : Prop := Forall (fun e => pe_exn e <> BoolEof) es.

Lemma eof_cases lib e : is_read_error lib e = false -> e <> BoolEof -> is_eof e = false.
Proof. destruct e; cbn; intros; congruence. Qed.
Lemma crash_not_eof e : no_args e = true -> is_eof e = false.
Proof. destruct e; cbn; congruence. Qed.

Lemma runs_drop lib skip x ms es cs pd cr fin : Forall is_byte x -> runs lib skip x ms es cs pd cr fin ->
  exists es' cs' pd', runs lib skip (drop_c0 x) ms es' cs' pd' cr fin /\ (no_bool_eof es -> no_bool_eof es').
Proof.
  intros F R. destruct x as [|b r]; [cbn [drop_c0]; eauto 6|]. cbn [drop_c0].
  destruct (Z.eqb_spec b 192) as [->|N]; [eauto 6|].
  assert (B : is_byte b) by (inversion F; assumption).
  inversion R as [|buf' o' e' N' E' H'|buf' o' e' N' E' H1' H2'|buf' o' t' m' n' ms1 es1 cs1 pd1 cr1 fin1 N' E' R1|buf' o' e' ms1 es1 cs1 pd1 cr1 fin1 N' E' H1' H2' R1]; subst;
  rewrite attempt_sync in E' by assumption; try (injection E' as <- <-; discriminate); try discriminate.
  rewrite skip_bad_buf in R1. exists es1, cs1, pd. split; [exact R1|]. unfold no_bool_eof. intros X. inversion X; assumption.
Qed.

Lemma runs_chunk lib skip buf ms1 es1 cs1 pd1 cr1 fin1 : runs lib skip buf ms1 es1 cs1 pd1 cr1 fin1 ->
  no_bool_eof es1 -> Forall is_byte buf ->
  forall x, Forall is_byte x ->
  (cr1 = true -> exists es cs pd, runs lib skip (buf ++ x) ms1 es cs pd true (fin1 ++ x)) /\
  (cr1 = false -> forall ms2 es2 cs2 pd2 cr2 fin2, runs lib skip (fin1 ++ x) ms2 es2 cs2 pd2 cr2 fin2 ->
   exists es cs pd, runs lib skip (buf ++ x) (ms1 ++ ms2) es cs pd cr2 fin2
     /\ (no_bool_eof es2 -> no_bool_eof es)).
Proof.
  induction 1 as [|buf o e N E H|buf o e N E H1 H2|buf o t m n ms es cs pd cr fin N E R IH|buf o e ms es cs pd cr fin N E H1 H2 R IH];
  intros NB F x Fx.
  - split; [discriminate|]. intros _ ms2 es2 cs2 pd2 cr2 fin2 R. exists es2, cs2, pd2. auto.
  - split; [discriminate|]. intros _ ms2 es2 cs2 pd2 cr2 fin2 R. exists es2, cs2, pd2. auto.
  - split; [|discriminate]. intros _. exists [], (olist o), 0. eapply runs_crash; [|eapply attempt_stable; eauto| |]; eauto.
    + intros K. apply app_eq_nil in K. tauto.
    + apply crash_not_eof. exact H2.
  - pose proof (got_shorter _ _ _ _ _ _ F N E) as K.
    specialize (IH NB (skipn_bytes _ _ F) x Fx).
    assert (Nx : buf ++ x <> []) by (intros X; apply app_eq_nil in X; tauto).
    assert (Ex : attempt skip (buf ++ x) = (o, Ok (t, m, n))) by (apply attempt_stable; auto; exact I).
    assert (Sx : skipn (n / 8) buf ++ x = skipn (n / 8) (buf ++ x)).
    { rewrite skipn_app. replace (n / 8 - length buf)%nat with 0%nat by lia. reflexivity. }
    rewrite Sx in IH. destruct IH as [IHc IHr]. split.
    + intros C. destruct (IHc C) as (es' & cs' & pd' & R'). do 3 eexists. eapply runs_got; eauto.
    + intros C ms2 es2 cs2 pd2 cr2 fin2 R2. destruct (IHr C _ _ _ _ _ _ R2) as (es' & cs' & pd' & R' & B').
      do 3 eexists. split; [cbn [app]; eapply runs_got; eauto | exact B'].
  - assert (Nx : buf ++ x <> []) by (intros X; apply app_eq_nil in X; tauto).
    inversion NB as [|? ? Be NB']; subst. cbn [pe_exn] in Be.
    assert (Ex : attempt skip (buf ++ x) = (o, Err e)) by (apply attempt_stable; auto; eapply eof_cases; eauto).
    assert (IH' := IH NB' (skip_bad_bytes _ F) x Fx). clear IH.
    destruct buf as [|b r]; [congruence|]. cbn [app] in *. rewrite skip_bad_buf in IH', R.
    assert (Fr : Forall is_byte r) by (inversion F; assumption).
    assert (K : forall es', no_bool_eof es' -> no_bool_eof (mkPErr e (snd (skip_bad (b :: r ++ x))) :: es')).
    { intros es' X. constructor; assumption. }
    destruct (drop_c0 r) as [|d dr] eqn:Ed.
    + inversion R as [| | | |]; subst; try congruence. split; [discriminate|].
      intros _ ms2 es2 cs2 pd2 cr2 fin2 R2. cbn [app] in R2. apply runs_drop in R2; [|exact Fx].
      destruct R2 as (es' & cs' & pd' & R' & B'). do 3 eexists. split.
      * eapply runs_skip; eauto. rewrite skip_bad_buf, drop_c0_app, Ed. exact R'.
      * intros X. apply K. apply B'. exact X.
    + destruct IH' as [IHc IHr]. split.
      * intros C. destruct (IHc C) as (es' & cs' & pd' & R'). do 3 eexists. eapply runs_skip; eauto.
        rewrite skip_bad_buf, drop_c0_app, Ed. exact R'.
      * intros C ms2 es2 cs2 pd2 cr2 fin2 R2. destruct (IHr C _ _ _ _ _ _ R2) as (es' & cs' & pd' & R' & B').
        do 3 eexists. split; [eapply runs_skip; eauto; rewrite skip_bad_buf, drop_c0_app, Ed; exact R' |].
        intros X. apply K. apply B'. exact X.
Qed.

(** no BoolEof error when it counts as "not enough data" or when ALP parsing is off *)
Lemma runs_no_bool lib skip buf ms es cs pd cr fin : runs lib skip buf ms es cs pd cr fin ->
  Forall is_byte buf -> lib = true \/ skip = true -> no_bool_eof es.
Proof.
  induction 1 as [|buf o e N E H|buf o e N E H1 H2|buf o t m n ms es cs pd cr fin N E R IH|buf o e ms es cs pd cr fin N E H1 H2 R IH];
  intros F C; try constructor.
  - apply IH; [apply skipn_bytes; exact F | exact C].
  - cbn [pe_exn]. intros ->. destruct C as [-> | ->]; [discriminate|].
    pose proof (attempt_cases true buf F N) as S. rewrite E in S.
    inversion S as [ | | | | | |c t payload rest Bc Bt P Fr]; subst.
    assert (Fpr : Forall is_byte (payload ++ rest)) by (apply Forall_app; split; [apply P | assumption]).
    pose proof (body_spec true t payload rest Fpr) as K.
    match goal with H : body_res _ _ _ _ = _ |- _ => rewrite H in K end.
    destruct K as (_ & _ & _ & K). destruct (K eq_refl) as (_ & _ & _ & X). discriminate.
  - apply IH; [apply skip_bad_bytes; exact F | exact C].
Qed.

(** ** Several calls *)
Lemma set_counters_skip p cs b : sp_skip (set_buf (with_counters p cs) b) = sp_skip p.
Proof. cbn [set_buf sp_skip]. apply counters_skip. Qed.
Lemma feeds_runs lib p chunks p' ms es : feeds lib p chunks p' ms es ->
  byte_in p -> Forall (Forall is_byte) chunks -> no_bool_eof es -> chunks <> [] ->
  exists es' cs pd, runs lib (sp_skip p) (sp_buf p ++ concat chunks) ms es' cs pd false (sp_buf p').
Proof.
  induction 1 as [p|p c p1 r cs p2 ms es E Fd IH]; intros B F NB Nn; [congruence|].
  inversion F as [|? ? Fc Fcs]; subst. apply sparse_inv in E; [|exact B | exact Fc].
  destruct E as (ms1 & es1 & cs1 & pd1 & cr1 & fin1 & R1 & -> & Er).
  destruct cr1; [discriminate|]. injection Er as ->. cbn [pr_msgs pr_errors] in *.
  assert (Bfin : Forall is_byte fin1).
  { eapply runs_bytes; [exact R1|]. apply Forall_app; auto. }
  apply Forall_app in NB. destruct NB as [NB1 NB2].
  destruct cs as [|c2 cs].
  - inversion Fd; subst. cbn [concat]. rewrite !app_nil_r. cbn [set_buf sp_buf]. eauto.
  - specialize (IH Bfin Fcs NB2 ltac:(discriminate)). rewrite set_counters_skip in IH. cbn [set_buf sp_buf] in IH.
    destruct IH as (es2 & cs2 & pd2 & R2).
    pose proof (runs_chunk _ _ _ _ _ _ _ _ _ R1 NB1 ltac:(apply Forall_app; auto) (concat (c2 :: cs))) as K.
    assert (Fcc : Forall is_byte (concat (c2 :: cs))) by (apply Forall_concat; exact Fcs).
    specialize (K Fcc). destruct K as [_ K]. specialize (K eq_refl _ _ _ _ _ _ R2).
    destruct K as (es' & cs' & pd' & R' & _). cbn [concat] in *. rewrite app_assoc. eauto.
Qed.
Lemma feed_raises_runs lib p chunks e : feed_raises lib p chunks e ->
  byte_in p -> Forall (Forall is_byte) chunks -> lib = true \/ sp_skip p = true ->
  e = IndexError /\ exists ms es' cs pd fin, runs lib (sp_skip p) (sp_buf p ++ concat chunks) ms es' cs pd true fin.
Proof.
  induction 1 as [p c p1 e cs E|p c p1 r cs e E Fd IH]; intros B F C; inversion F as [|? ? Fc Fcs]; subst;
  apply sparse_inv in E; try assumption; destruct E as (ms1 & es1 & cs1 & pd1 & cr1 & fin1 & R1 & -> & Er);
  destruct cr1; try discriminate.
  - injection Er as ->. split; [reflexivity|].
    assert (Fcc : Forall is_byte (concat cs)) by (apply Forall_concat; exact Fcs).
    assert (Fb : Forall is_byte (sp_buf p ++ c)) by (apply Forall_app; auto).
    pose proof (runs_chunk _ _ _ _ _ _ _ _ _ R1 (runs_no_bool _ _ _ _ _ _ _ _ _ R1 Fb C) Fb (concat cs) Fcc) as [K _].
    destruct (K eq_refl) as (es' & cs' & pd' & R'). cbn [concat]. rewrite app_assoc. eauto 10.
  - assert (Fb : Forall is_byte (sp_buf p ++ c)) by (apply Forall_app; auto).
    assert (Bfin : Forall is_byte fin1) by (eapply runs_bytes; [exact R1 | exact Fb]).
    specialize (IH Bfin Fcs). rewrite set_counters_skip in IH. specialize (IH C). cbn [set_buf sp_buf] in IH.
    destruct IH as [-> (ms2 & es2 & cs2 & pd2 & fin2 & R2)]. split; [reflexivity|].
    assert (Fcc : Forall is_byte (concat cs)) by (apply Forall_concat; exact Fcs).
    pose proof (runs_chunk _ _ _ _ _ _ _ _ _ R1 (runs_no_bool _ _ _ _ _ _ _ _ _ R1 Fb C) Fb (concat cs) Fcc) as [_ K].
    destruct (K eq_refl _ _ _ _ _ _ R2) as (es' & cs' & pd' & R' & _). cbn [concat]. rewrite app_assoc. eauto 10.
Qed.
Lemma feeds_total lib chunks : forall p, byte_in p -> Forall (Forall is_byte) chunks ->
  (exists p' ms es, feeds lib p chunks p' ms es) \/ (exists e, feed_raises lib p chunks e).
Proof.
  induction chunks as [|c cs IH]; intros p B F; [left; do 3 eexists; constructor|].
  inversion F as [|? ? Fc Fcs]; subst. destruct (sparse lib p c) as [p1 r] eqn:E.
  pose proof E as E2. apply sparse_inv in E2; [|exact B | exact Fc].
  destruct E2 as (ms1 & es1 & cs1 & pd1 & cr1 & fin1 & R1 & Ep & Er).
  destruct cr1; subst r.
  - right. eexists. eapply raises_here. exact E.
  - assert (B1 : byte_in p1).
    { subst p1. unfold byte_in. cbn [set_buf sp_buf]. eapply runs_bytes; [exact R1|]. apply Forall_app; auto. }
    destruct (IH p1 B1 Fcs) as [(p' & ms & es & H) | (e & H)].
    + left. do 3 eexists. econstructor; eauto.
    + right. exists e. eapply raises_later; eauto.
Qed.

(** C03: any chunking gives what one call would give *)
Lemma chunk_invariant lib p chunks p' ms es : byte_in p -> Forall (Forall is_byte) chunks -> chunks <> [] ->
  (forall e, In e es -> pe_exn e <> BoolEof) ->
  feeds lib p chunks p' ms es ->
  exists q r, sparse lib p (concat chunks) = (q, Ok r) /\ pr_msgs r = ms /\ sp_buf q = sp_buf p'.
Proof.
  intros B F N NB H. assert (NB' : no_bool_eof es) by (apply Forall_forall; exact NB).
  destruct (feeds_runs _ _ _ _ _ _ H B F NB' N) as (es' & cs & pd & R).
  rewrite (sparse_runs _ _ _ _ _ _ _ _ _ B (proj2 (Forall_concat _ _) F) R). eauto 6.
Qed.
Lemma feeds_inv lib p chunks p' ms es : feeds lib p chunks p' ms es -> byte_in p -> Forall (Forall is_byte) chunks ->
  lib = true \/ sp_skip p = true -> no_bool_eof es.
Proof.
  induction 1 as [p|p c p1 r cs p2 ms es E Fd IH]; intros B F C; [constructor|].
  inversion F as [|? ? Fc Fcs]; subst. apply sparse_inv in E; [|exact B | exact Fc].
  destruct E as (ms1 & es1 & cs1 & pd1 & cr1 & fin1 & R1 & -> & Er).
  destruct cr1; [discriminate|]. injection Er as ->. cbn [pr_errors].
  assert (Fb : Forall is_byte (sp_buf p ++ c)) by (apply Forall_app; auto).
  apply Forall_app. split; [exact (runs_no_bool _ _ _ _ _ _ _ _ _ R1 Fb C)|].
  apply IH; [eapply runs_bytes; eauto | exact Fcs |]. rewrite set_counters_skip. exact C.
Qed.
Lemma chunk_iff lib p chunks ms b : byte_in p -> Forall (Forall is_byte) chunks -> chunks <> [] ->
  lib = true \/ sp_skip p = true ->
  ((exists p' es, feeds lib p chunks p' ms es /\ sp_buf p' = b)
   <-> (exists q r, sparse lib p (concat chunks) = (q, Ok r) /\ pr_msgs r = ms /\ sp_buf q = b)).
Proof.
  intros B F N C. split.
  - intros (p' & es & H & <-). apply (chunk_invariant lib p chunks p' ms es); auto.
    apply Forall_forall. exact (feeds_inv _ _ _ _ _ _ H B F C).
  - intros (q & r & E & <- & <-). destruct (feeds_total lib chunks p B F) as [(p' & ms & es & H) | (e & H)].
    + destruct (chunk_invariant lib p chunks p' ms es B F N) as (q' & r' & E' & M & Bq); [|exact H|].
      * apply Forall_forall. exact (feeds_inv _ _ _ _ _ _ H B F C).
      * rewrite E in E'. injection E' as <- <-. exists p', es. subst. auto.
    + apply feed_raises_runs in H; auto. destruct H as [_ (ms & es' & cs & pd & fin & R)].
      rewrite (sparse_runs _ _ _ _ _ _ _ _ _ B (proj2 (Forall_concat _ _) F) R) in E. discriminate.
Qed.
Lemma chunk_raises_iff lib p chunks : byte_in p -> Forall (Forall is_byte) chunks -> chunks <> [] ->
  lib = true \/ sp_skip p = true ->
  ((exists e, feed_raises lib p chunks e) <-> (exists q e, sparse lib p (concat chunks) = (q, Err e))).
Proof.
  intros B F N C. split.
  - intros (e & H). apply feed_raises_runs in H; auto. destruct H as [_ (ms & es' & cs & pd & fin & R)].
    rewrite (sparse_runs _ _ _ _ _ _ _ _ _ B (proj2 (Forall_concat _ _) F) R). eauto.
  - intros (q & e & E). destruct (feeds_total lib chunks p B F) as [(p' & ms & es & H) | H]; [|exact H].
    destruct (chunk_invariant lib p chunks p' ms es B F N) as (q' & r' & E' & M & Bq); [|exact H|congruence].
    apply Forall_forall. exact (feeds_inv _ _ _ _ _ _ H B F C).
Qed.
