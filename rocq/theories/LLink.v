(** Sender and receiver, counters, poison frames, retained bytes. *)
From Coq Require Import ZifyBool ZifyNat.
From Verif Require Export LTraffic.
Ltac Zify.zify_post_hook ::= Z.div_mod_to_equations.

(** ** Located messages *)
Lemma decodes_app skip pre s ms : decodes skip s ms -> decodes skip (pre ++ s) ms.
Proof.
  destruct 1 as [s|pre' c t payload rest m k ms Bc Bt P C D]; [constructor|].
  rewrite app_assoc. econstructor; eassumption.
Qed.
Lemma runs_decodes lib skip buf ms es cs pd cr fin : runs lib skip buf ms es cs pd cr fin ->
  Forall is_byte buf -> decodes skip buf ms.
Proof.
  induction 1 as [|buf o e N E H|buf o e N E H1 H2|buf o t m n ms es cs pd cr fin N E R IH|buf o e ms es cs pd cr fin N E H1 H2 R IH];
  intros F; try constructor.
  - destruct (attempt_ok _ _ _ _ _ _ F N E) as (c & payload & rest & k & -> & -> & -> & Bc & Bt & P & Fr & C & L).
    change (frame c t payload ++ rest) with ([] ++ frame c t payload ++ rest). econstructor; try eassumption.
    specialize (IH (skipn_bytes _ _ F)). replace ((56 + 8 * k) / 8)%nat with (7 + k)%nat in IH by lia.
    replace (skipn (7 + k) (frame c t payload ++ rest)) with (skipn k (payload ++ rest)) in IH; [exact IH|].
    unfold frame. destruct (calculate_crc payload). reflexivity.
  - specialize (IH (skip_bad_bytes _ F)). destruct buf as [|b r]; [congruence|]. rewrite skip_bad_buf in IH.
    destruct (drop_c0_suffix r) as (pre & Er & _). rewrite Er. change (b :: pre ++ drop_c0 r) with ((b :: pre) ++ drop_c0 r).
    apply decodes_app. exact IH.
Qed.
Lemma parse_decodes lib p x p' r : byte_in p -> Forall is_byte x -> sparse lib p x = (p', Ok r) ->
  decodes (sp_skip p) (sp_buf p ++ x) (pr_msgs r).
Proof.
  intros B F E. apply sparse_inv in E; try assumption.
  destruct E as (ms & es & cs & pd & cr & fin & R & _ & Er). destruct cr; [discriminate|]. injection Er as ->.
  cbn [pr_msgs]. eapply runs_decodes; [exact R|]. apply Forall_app; auto.
Qed.

(** ** Consumption *)
Lemma carries_length skip t payload rest m k : Forall is_byte (payload ++ rest) -> carries skip t payload rest m k ->
  (t = 5 -> k = 1%nat) /\ (t <> 5 -> (length payload <= k)%nat) /\
  (t = 4 \/ skip = true /\ t <> 5 -> k = length payload).
Proof.
  intros F C. destruct C as [payload rest b r E|payload rest|t payload rest S N4 N5|t payload rest c k S N4 N5 E].
  - repeat split; try reflexivity; intros; [congruence|]. destruct H as [H|[_ H]]; [discriminate | congruence].
  - repeat split; intros; try reflexivity; lia.
  - repeat split; intros; try reflexivity; lia.
  - refine (conj _ (conj _ _)); [congruence | | intros [X|[X _]]; congruence].
    intros _. pose proof (good_alp (zlen payload) (St 56 (bytes_bits (payload ++ rest))) eq_refl) as G.
    rewrite E in G. destruct G as (d & _ & Hp & [_ L] & _). cbn [pos] in Hp. unfold zlen in L. lia.
Qed.
Lemma parse_frame lib p c t payload rest m k : sp_buf p = [] ->
  is_byte c -> is_byte t -> is_payload payload -> Forall is_byte rest -> carries (sp_skip p) t payload rest m k ->
  sparse lib p (frame c t payload ++ rest) =
  let (p', r) := sparse lib (bump p c) (skipn k (payload ++ rest)) in
  (p', let! r := r in Ok (mkPR ((t, m) :: pr_msgs r) (Z.of_nat (8 * (7 + k)) + pr_parsed r) (pr_left r) (pr_errors r))).
Proof.
  intros B Bc Bt P F C.
  assert (Fk : Forall is_byte (skipn k (payload ++ rest))).
  { apply skipn_bytes, Forall_app; split; [apply P | exact F]. }
  destruct (runs_total lib (sp_skip p) _ _ Fk (Nat.le_refl _)) as (ms & es & cs & pd & cr & fin & R).
  assert (B0 : Forall is_byte (sp_buf p)) by (rewrite B; constructor).
  assert (B1 : Forall is_byte (sp_buf (bump p c))) by (rewrite bump_buf; exact B0).
  assert (R1 : runs lib (sp_skip (bump p c)) (sp_buf (bump p c) ++ skipn k (payload ++ rest)) ms es cs pd cr fin).
  { rewrite bump_skip, bump_buf, B. exact R. }
  rewrite (sparse_runs _ _ _ _ _ _ _ _ _ B1 Fk R1).
  assert (Fa : Forall is_byte (frame c t payload ++ rest)) by (apply Forall_app; split; [apply frame_bytes; assumption | exact F]).
  pose proof (runs_frame lib (sp_skip p) c t payload rest m k _ _ _ _ _ _ Bc Bt P F C R) as R2.
  rewrite <- (app_nil_l (frame c t payload ++ rest)), <- B in R2.
  rewrite (sparse_runs _ _ _ _ _ _ _ _ _ B0 Fa R2). cbn [with_counters fold_left].
  fold (with_counters (bump p c) cs). destruct cr; [reflexivity|]. cbn [rbind pr_msgs pr_parsed pr_left pr_errors].
  do 3 f_equal. lia.
Qed.

(** ** What a call leaves behind *)
Definition skipped_sum (es : list PErr) : Z := fold_right (fun e a => pe_skipped e + a) 0 es.
Lemma runs_account lib skip buf ms es cs pd cr fin : runs lib skip buf ms es cs pd cr fin -> Forall is_byte buf ->
  (exists pre, buf = pre ++ fin) /\ pd + 8 * skipped_sum es + 8 * zlen fin = 8 * zlen buf
  /\ Forall (fun e => 0 < pe_skipped e) es.
Proof.
  induction 1 as [|buf o e N E H|buf o e N E H1 H2|buf o t m n ms es cs pd cr fin N E R IH|buf o e ms es cs pd cr fin N E H1 H2 R IH]; intros F.
  - split; [exists []; reflexivity | split; [reflexivity | constructor]].
  - split; [exists []; reflexivity | split; [cbn [skipped_sum fold_right]; lia | constructor]].
  - split; [exists []; reflexivity | split; [cbn [skipped_sum fold_right]; lia | constructor]].
  - pose proof (got_shorter _ _ _ _ _ _ F N E) as K.
    destruct (attempt_ok _ _ _ _ _ _ F N E) as (c & payload & rest & k & _ & _ & En & _).
    specialize (IH (skipn_bytes _ _ F)). destruct IH as ((pre & Ep) & A & P). split; [|split; [|exact P]].
    + exists (firstn (n / 8) buf ++ pre). rewrite <- app_assoc, <- Ep. symmetry. apply firstn_skipn.
    + assert (L : zlen (skipn (n / 8) buf) = zlen buf - Z.of_nat (n / 8)) by (unfold zlen; rewrite skipn_length; lia).
      rewrite L in A. lia.
  - specialize (IH (skip_bad_bytes _ F)). destruct buf as [|b r]; [congruence|].
    rewrite skip_bad_buf in IH. rewrite skip_bad_count. destruct IH as ((pre & Ep) & A & P).
    destruct (drop_c0_suffix r) as (pre' & Er & _). split; [|split].
    + exists (b :: pre' ++ pre). cbn [app]. rewrite <- app_assoc, <- Ep. congruence.
    + unfold skipped_sum in *. cbn [fold_right pe_skipped]. lia.
    + constructor; [|exact P]. cbn [pe_skipped]. pose proof (drop_c0_length r). rewrite zlen_cons. unfold zlen. lia.
Qed.
Lemma runs_rest lib skip buf ms es cs pd fin : runs lib skip buf ms es cs pd false fin -> Forall is_byte buf ->
  exists cs', runs lib skip fin [] [] cs' 0 false fin.
Proof.
  remember false as cr. induction 1 as [|buf o e N E H|buf o e N E H1 H2|buf o t m n ms es cs pd cr fin N E R IH|buf o e ms es cs pd cr fin N E H1 H2 R IH]; intros F; try discriminate.
  - exists []. constructor.
  - eexists. eapply runs_wait; eauto.
  - apply IH; [assumption | apply skipn_bytes; exact F].
  - apply IH; [assumption | apply skip_bad_bytes; exact F].
Qed.
Lemma rest_shape lib skip fin cs : runs lib skip fin [] [] cs 0 false fin -> Forall is_byte fin ->
  fin = [] \/ (exists r, fin = 192 :: r /\ hd 0 r = 0).
Proof.
  intros R F. inversion R as [|buf' o' e' N' E' H'|buf' o' e' N' E' H1' H2'|buf' o' t' m' n' ms1 es1 cs1 pd1 cr1 fin1 N' E' R1|]; subst; [auto|].
  right. pose proof (attempt_cases skip fin F N') as S. rewrite E' in S.
  inversion S as [b r' B Nb|b r' B Nb| |r' Fr L|c t len h l body ? ? ? ? ? Fb L|c t h l payload rest Bc Bt Bh Bl P Fr Nc|c t payload rest Bc Bt P Fr]; subst; try discriminate.
  - exists []. auto.
  - eexists. split; reflexivity.
  - eexists. split; reflexivity.
  - unfold frame. destruct (calculate_crc payload). eexists. split; reflexivity.
Qed.
Lemma rest_bound lib fin cs : runs lib true fin [] [] cs 0 false fin -> Forall is_byte fin -> zlen fin <= 261.
Proof.
  intros R F. inversion R as [|buf' o' e' N' E' H'|buf' o' e' N' E' H1' H2'|buf' o' t' m' n' ms1 es1 cs1 pd1 cr1 fin1 N' E' R1|]; subst.
  - unfold zlen. cbn [length]. lia.
  - pose proof (attempt_cases true fin F N') as S. rewrite E' in S.
    inversion S as [b r' B Nb|b r' B Nb| |r' Fr L|c t len h l body ? ? ? ? ? Fb L|c t h l payload rest Bc Bt Bh Bl P Fr Nc|c t payload rest Bc Bt P Fr]; subst; try discriminate.
    + unfold zlen. cbn [length]. lia.
    + rewrite !zlen_cons. unfold is_byte in *. lia.
    + assert (Fpr : Forall is_byte (payload ++ rest)) by (apply Forall_app; split; [apply P | assumption]).
      pose proof (body_spec true t payload rest Fpr) as K.
      match goal with H : body_res _ _ _ _ = _ |- _ => rewrite H in K end.
      destruct K as (_ & _ & _ & K). destruct (K eq_refl) as (-> & -> & _). rewrite app_nil_r.
      unfold zlen. rewrite frame_length. cbn [length]. lia.
Qed.
Lemma parse_returns lib p x p' r : byte_in p -> Forall is_byte x -> sparse lib p x = (p', r) ->
  match r with
  | Err e => e = IndexError
  | Ok r => (exists pre, sp_buf p ++ x = pre ++ sp_buf p') /\ (sp_buf p' = [] \/ exists b, sp_buf p' = 192 :: b /\ hd 0 b = 0)
     /\ (exists q r', sparse lib p' [] = (q, Ok r') /\ sp_buf q = sp_buf p' /\ pr_msgs r' = [] /\ pr_errors r' = [])
     /\ pr_left r = 8 * zlen (sp_buf p')
     /\ pr_parsed r + 8 * fold_right (fun e a => pe_skipped e + a) 0 (pr_errors r) + pr_left r = 8 * zlen (sp_buf p ++ x)
     /\ Forall (fun e => 0 < pe_skipped e) (pr_errors r)
  end.
Proof.
  intros B F E. assert (Fb : Forall is_byte (sp_buf p ++ x)) by (apply Forall_app; auto).
  apply sparse_inv in E; try assumption.
  destruct E as (ms & es & cs & pd & cr & fin & R & -> & ->). destruct cr; [reflexivity|].
  cbn [set_buf sp_buf pr_left pr_parsed pr_errors].
  destruct (runs_account _ _ _ _ _ _ _ _ _ R Fb) as (Pre & A & Pos).
  destruct (runs_rest _ _ _ _ _ _ _ _ R Fb) as (cs' & R').
  pose proof (runs_bytes _ _ _ _ _ _ _ _ _ R Fb) as Ff.
  refine (conj Pre (conj (rest_shape _ _ _ _ R' Ff) (conj _ (conj eq_refl (conj A Pos))))).
  set (p1 := set_buf (with_counters p cs) fin).
  assert (R1 : runs lib (sp_skip p1) (sp_buf p1 ++ []) [] [] cs' 0 false fin).
  { rewrite app_nil_r. unfold p1. rewrite set_counters_skip. exact R'. }
  rewrite (sparse_runs lib p1 [] _ _ _ _ _ _ Ff (Forall_nil _) R1). do 2 eexists. repeat split.
Qed.
Lemma retained_bound lib p x p' r : byte_in p -> Forall is_byte x -> sp_skip p = true ->
  sparse lib p x = (p', Ok r) -> zlen (sp_buf p') <= 261.
Proof.
  intros B F S E. assert (Fb : Forall is_byte (sp_buf p ++ x)) by (apply Forall_app; auto).
  apply sparse_inv in E; try assumption. rewrite S in E.
  destruct E as (ms & es & cs & pd & cr & fin & R & -> & Er). destruct cr; [discriminate|].
  cbn [set_buf sp_buf]. destruct (runs_rest _ _ _ _ _ _ _ _ R Fb) as (cs' & R').
  exact (rest_bound _ _ _ R' (runs_bytes _ _ _ _ _ _ _ _ _ R Fb)).
Qed.

(** ** Exceptions *)
Lemma attempt_crash skip buf o e : Forall is_byte buf -> buf <> [] -> attempt skip buf = (o, Err e) -> no_args e = true ->
  e = AssertNoMsg /\ skip = false /\ exists c t payload rest, o = Some c /\ buf = frame c t payload ++ rest /\ is_byte c /\ is_byte t
   /\ is_payload payload /\ Forall is_byte rest /\ t <> 4 /\ t <> 5
   /\ alp_parse (zlen payload) (St 56 (bytes_bits (payload ++ rest))) = Err AssertNoMsg.
Proof.
  intros F N E H. pose proof (attempt_cases skip buf F N) as S. rewrite E in S.
  inversion S as [b r' B Nb|b r' B Nb| |r' Fr L|c t len h l body ? ? ? ? ? Fb L|c t h l payload rest Bc Bt Bh Bl P Fr Nc|c t payload rest Bc Bt P Fr]; subst; try discriminate.
  assert (Fpr : Forall is_byte (payload ++ rest)) by (apply Forall_app; split; [apply P | assumption]).
  pose proof (body_spec skip t payload rest Fpr) as K.
  match goal with H : body_res _ _ _ _ = _ |- _ => rewrite H in K end.
  destruct K as (A & _ & K & _). destruct K as (S1 & N4 & N5 & Ea); [left; apply crash_not_eof; exact H|].
  assert (e = AssertNoMsg) by (destruct e; cbn in *; congruence). subst e.
  refine (conj eq_refl (conj S1 _)). exists c, t, payload, rest. auto 12.
Qed.
Lemma runs_crashed lib skip buf ms es cs pd fin : runs lib skip buf ms es cs pd true fin -> Forall is_byte buf ->
  exists o, fin <> [] /\ attempt skip fin = (o, Err AssertNoMsg) /\ skip = false.
Proof.
  remember true as cr. induction 1 as [|buf o e N E H|buf o e N E H1 H2|buf o t m n ms es cs pd cr fin N E R IH|buf o e ms es cs pd cr fin N E H1 H2 R IH]; intros F; try discriminate.
  - destruct (attempt_crash _ _ _ _ F N E H2) as (-> & S & _). exists o. auto.
  - apply IH; [assumption | apply skipn_bytes; exact F].
  - apply IH; [assumption | apply skip_bad_bytes; exact F].
Qed.
Lemma raise_inv lib p x p' e : byte_in p -> Forall is_byte x -> sparse lib p x = (p', Err e) ->
  e = IndexError /\ sp_skip p = false /\ exists pre c t payload rest,
    sp_buf p ++ x = pre ++ sp_buf p' /\ sp_buf p' = frame c t payload ++ rest
    /\ is_byte c /\ is_byte t /\ is_payload payload /\ Forall is_byte rest /\ t <> 4 /\ t <> 5
    /\ alp_parse (zlen payload) (St 56 (bytes_bits (payload ++ rest))) = Err AssertNoMsg.
Proof.
  intros B F E. assert (Fb : Forall is_byte (sp_buf p ++ x)) by (apply Forall_app; auto).
  apply sparse_inv in E; try assumption.
  destruct E as (ms & es & cs & pd & cr & fin & R & -> & Er). destruct cr; [|discriminate]. injection Er as ->.
  destruct (runs_crashed _ _ _ _ _ _ _ _ R Fb) as (o & N & A & S).
  pose proof (runs_bytes _ _ _ _ _ _ _ _ _ R Fb) as Ff.
  destruct (attempt_crash _ _ _ _ Ff N A eq_refl) as (_ & _ & c & t & payload & rest & _ & K).
  destruct (runs_account _ _ _ _ _ _ _ _ _ R Fb) as ((pre & Ep) & _).
  refine (conj eq_refl (conj S _)). exists pre, c, t, payload, rest. cbn [set_buf sp_buf]. tauto.
Qed.
Lemma poison_raises lib p x c t payload rest : byte_in p -> Forall is_byte x -> sp_skip p = false ->
  sp_buf p ++ x = frame c t payload ++ rest -> is_byte c -> is_byte t -> is_payload payload -> Forall is_byte rest ->
  t <> 4 -> t <> 5 -> alp_parse (zlen payload) (St 56 (bytes_bits (payload ++ rest))) = Err AssertNoMsg ->
  exists p', sparse lib p x = (p', Err IndexError) /\ sp_buf p' = sp_buf p ++ x.
Proof.
  intros B F S E Bc Bt P Fr N4 N5 Ea.
  assert (R : runs lib (sp_skip p) (sp_buf p ++ x) [] [] [c] 0 true (sp_buf p ++ x)).
  { change [c] with (olist (Some c)). rewrite S. apply (runs_crash _ _ _ _ AssertNoMsg).
    - rewrite E. unfold frame. destruct (calculate_crc payload). discriminate.
    - rewrite E. pose proof (calc_bytes payload) as [H1 H2]. rewrite attempt_frame by assumption.
      rewrite body_alp, Ea by auto. reflexivity.
    - reflexivity.
    - reflexivity. }
  rewrite (sparse_runs _ _ _ _ _ _ _ _ _ B F R). eexists. split; reflexivity.
Qed.
Lemma poison_forever lib p x p' e y : byte_in p -> Forall is_byte x -> sparse lib p x = (p', Err e) -> Forall is_byte y ->
  exists p'', sparse lib p' y = (p'', Err IndexError) /\ sp_buf p'' = sp_buf p' ++ y.
Proof.
  intros B F E Fy. assert (Fb : Forall is_byte (sp_buf p ++ x)) by (apply Forall_app; auto).
  apply sparse_inv in E; try assumption.
  destruct E as (ms & es & cs & pd & cr & fin & R & -> & Er). destruct cr; [|discriminate].
  destruct (runs_crashed _ _ _ _ _ _ _ _ R Fb) as (o & N & A & S).
  pose proof (runs_bytes _ _ _ _ _ _ _ _ _ R Fb) as Ff.
  set (p1 := set_buf (with_counters p cs) fin).
  assert (R1 : runs lib (sp_skip p1) (sp_buf p1 ++ y) [] [] (olist o) 0 true (sp_buf p1 ++ y)).
  { unfold p1. rewrite set_counters_skip. apply (runs_crash _ _ _ _ AssertNoMsg); [|apply attempt_stable; [| | |exact A|]| |]; auto.
    cbn [set_buf sp_buf]. intros X. apply app_eq_nil in X. tauto. }
  rewrite (sparse_runs lib p1 y _ _ _ _ _ _ Ff Fy R1). eexists. split; reflexivity.
Qed.
Lemma skip_never_raises lib p x p' r : byte_in p -> Forall is_byte x -> sp_skip p = true -> sparse lib p x = (p', r) ->
  exists r', r = Ok r'.
Proof.
  intros B F S E. destruct r as [r|e]; [eauto|]. apply raise_inv in E; try assumption. destruct E as (_ & X & _). congruence.
Qed.
