(** Lemmas for C88 and C89 *)
From Coq Require Import ZifyBool ZifyNat.
From Verif Require Import SReport LRun LHexTool.
Open Scope list_scope.
Open Scope Z_scope.
Ltac Zify.zify_post_hook ::= Z.div_mod_to_equations.

Definition crc_of (buf : list Z) : option (list Z) :=
  match header_fields (zlen buf) (stream_of buf) with
  | Ok ((_, _, _, _, _, payload), _) => Some payload
  | Err _ => None
  end.
Lemma one_round_eq lib p : sp_buf p <> [] ->
  one_round lib p =
  let (o, r) := attempt (sp_skip p) (sp_buf p) in
  let p' := with_counters p (olist o) in
  match r with
  | Ok (mt, m, n) => (set_buf p' (skipn (n / 8) (sp_buf p)), mkRound (sp_buf p) (crc_of (sp_buf p)) (Got mt m (n / 8)))
  | Err e => if is_read_error lib e then (p', mkRound (sp_buf p) (crc_of (sp_buf p)) Waits)
             else if no_args e then (p', mkRound (sp_buf p) (crc_of (sp_buf p)) (Leaves IndexError))
             else (set_buf p' (fst (skip_bad (sp_buf p))), mkRound (sp_buf p) (crc_of (sp_buf p)) (Bad e (snd (skip_bad (sp_buf p)))))
  end.
Proof.
  intros N. unfold one_round. fold (crc_of (sp_buf p)).
  pose proof (header_attempt p N) as K.
  destruct (parse_header p (stream_of (sp_buf p))) as [p' hdr]. destruct (attempt (sp_skip p) (sp_buf p)) as [o r'].
  injection K as -> K. rewrite K. cbv zeta.
  destruct r' as [[[mt m] n]|e]; [reflexivity|].
  destruct (is_read_error lib e); [reflexivity|]. destruct (no_args e); [reflexivity|].
  destruct (skip_bad (sp_buf p)) as [bb nn]. reflexivity.
Qed.

Fixpoint tiled (buf : list Z) (rs : list Round) (fin : list Z) : Prop :=
  match rs with
  | [] => fin = buf
  | r :: rs => ro_buffer r = buf /\ (taken r <= length buf)%nat /\ tiled (skipn (taken r) buf) rs fin
  end.
Definition round_ok (r : Round) : Prop :=
  ro_buffer r <> [] /\ ro_crc r = crc_of (ro_buffer r) /\ Forall is_byte (ro_buffer r)
  /\ match ro_out r with
     | Got _ _ n => (7 <= n)%nat
     | Bad e n => exists b rest, ro_buffer r = b :: rest /\ n = zlen (b :: rest) - zlen (drop_c0 rest)
     | Waits => True
     | Leaves e => e = IndexError
     end.
Definition is_leave (r : Round) : bool := match ro_out r with Leaves _ => true | _ => false end.

Lemma drop_count b rest : (1 <= Z.to_nat (zlen (b :: rest) - zlen (drop_c0 rest)) <= length (b :: rest))%nat
  /\ skipn (Z.to_nat (zlen (b :: rest) - zlen (drop_c0 rest))) (b :: rest) = drop_c0 rest.
Proof.
  destruct (drop_c0_suffix rest) as (pre & E & _). pose proof (f_equal (@length Z) E) as L. rewrite app_length in L.
  set (d := drop_c0 rest) in *. clearbody d.
  assert (N : Z.to_nat (zlen (b :: rest) - zlen d) = S (length pre)) by (unfold zlen; cbn [length]; lia).
  rewrite N. cbn [length skipn]. split; [lia|]. rewrite E. rewrite skipn_app, skipn_all, Nat.sub_diag. reflexivity.
Qed.

Lemma rounds_runs lib skip buf ms es cs pd cr fin : runs lib skip buf ms es cs pd cr fin ->
  forall n p, sp_skip p = skip -> sp_buf p = buf -> Forall is_byte buf -> (length buf <= n)%nat ->
  exists rs, rounds n lib p = (set_buf (with_counters p cs) fin, rs) /\ messages rs = ms /\ errors rs = es
    /\ existsb is_leave rs = cr /\ tiled buf rs fin /\ Forall round_ok rs.
Proof.
  induction 1 as [|buf o e N E H|buf o e N E H1 H2|buf o t m n ms es cs pd cr fin N E R IH|buf o e ms es cs pd cr fin N E H1 H2 R IH];
    intros k p S B F L.
  - exists []. destruct k; cbn [rounds]; rewrite ?B; cbn [with_counters fold_left];
      (refine (conj _ (conj eq_refl (conj eq_refl (conj eq_refl (conj eq_refl (Forall_nil _)))))); rewrite <- B, set_same; reflexivity).
  - destruct k as [|k]; [destruct buf; [congruence | cbn in L; lia]|].
    assert (N' : sp_buf p <> []) by congruence.
    exists [mkRound buf (crc_of buf) Waits]. cbn [rounds]. destruct (sp_buf p) as [|b0 r0] eqn:Eb; [congruence|].
    rewrite <- Eb in *. rewrite one_round_eq by exact N'. rewrite S, B, E. cbv zeta. rewrite H. cbn [ro_out goes_on].
    refine (conj _ (conj eq_refl (conj eq_refl (conj eq_refl (conj _ _))))).
    + f_equal. symmetry. rewrite <- B, <- (counters_buf (olist o) p). apply set_same.
    + cbn [tiled ro_buffer taken ro_out skipn]. repeat split. lia.
    + constructor; [|constructor]. repeat split; assumption.
  - destruct k as [|k]; [destruct buf; [congruence | cbn in L; lia]|].
    assert (N' : sp_buf p <> []) by congruence.
    exists [mkRound buf (crc_of buf) (Leaves IndexError)]. cbn [rounds]. destruct (sp_buf p) as [|b0 r0] eqn:Eb; [congruence|].
    rewrite <- Eb in *. rewrite one_round_eq by exact N'. rewrite S, B, E. cbv zeta. rewrite H1, H2. cbn [ro_out goes_on].
    refine (conj _ (conj eq_refl (conj eq_refl (conj eq_refl (conj _ _))))).
    + f_equal. symmetry. rewrite <- B, <- (counters_buf (olist o) p). apply set_same.
    + cbn [tiled ro_buffer taken ro_out skipn]. repeat split. lia.
    + constructor; [|constructor]. repeat split; assumption.
  - destruct k as [|k]; [destruct buf; [congruence | cbn in L; lia]|].
    assert (N' : sp_buf p <> []) by congruence. pose proof (got_shorter _ _ _ _ _ _ F N E) as K.
    destruct (IH k (set_buf (with_counters p (olist o)) (skipn (n / 8) buf))) as (rs & RS & M & ER & LV & T & OK).
    { cbn [sp_skip set_buf]. rewrite counters_skip. exact S. } { reflexivity. } { apply skipn_bytes. exact F. }
    { rewrite skipn_length. lia. }
    exists (mkRound buf (crc_of buf) (Got t m (n / 8)) :: rs). cbn [rounds]. destruct (sp_buf p) as [|b0 r0] eqn:Eb; [congruence|].
    rewrite <- Eb in *. rewrite one_round_eq by exact N'. rewrite S, B, E. cbv zeta. cbn [ro_out goes_on]. rewrite RS.
    refine (conj _ (conj _ (conj _ (conj _ (conj _ _))))).
    + rewrite counters_set, set_set, counters_app. reflexivity.
    + cbn [messages flat_map got ro_out app]. fold (messages rs). rewrite M. reflexivity.
    + exact ER.
    + exact LV.
    + cbn [tiled ro_buffer taken ro_out]. repeat split; [lia | exact T].
    + constructor; [|exact OK]. repeat split; try assumption. cbn [ro_out]. lia.
  - destruct k as [|k]; [destruct buf; [congruence | cbn in L; lia]|].
    assert (N' : sp_buf p <> []) by congruence. pose proof (skip_bad_shorter buf N) as K.
    destruct (IH k (set_buf (with_counters p (olist o)) (fst (skip_bad buf)))) as (rs & RS & M & ER & LV & T & OK).
    { cbn [sp_skip set_buf]. rewrite counters_skip. exact S. } { reflexivity. } { apply skip_bad_bytes. exact F. }
    { lia. }
    exists (mkRound buf (crc_of buf) (Bad e (snd (skip_bad buf))) :: rs). cbn [rounds]. destruct (sp_buf p) as [|b0 r0] eqn:Eb; [congruence|].
    rewrite <- Eb in *. rewrite one_round_eq by exact N'. rewrite S, B, E. cbv zeta. rewrite H1, H2. cbn [ro_out goes_on]. rewrite RS.
    assert (X : exists b rest, buf = b :: rest) by (destruct buf; [congruence | eauto]). destruct X as (b1 & rest & Ebuf).
    assert (C : snd (skip_bad buf) = zlen (b1 :: rest) - zlen (drop_c0 rest)) by (rewrite Ebuf; apply skip_bad_count).
    destruct (drop_count b1 rest) as [D1 D2].
    refine (conj _ (conj _ (conj _ (conj _ (conj _ _))))).
    + rewrite counters_set, set_set, counters_app. reflexivity.
    + exact M.
    + cbn [errors flat_map bad ro_out app]. fold (errors rs). rewrite ER. reflexivity.
    + exact LV.
    + cbn [tiled ro_buffer taken ro_out]. rewrite C. split; [reflexivity|]. split; [rewrite Ebuf; lia|].
      rewrite Ebuf, D2. rewrite Ebuf, skip_bad_buf in T. exact T.
    + constructor; [|exact OK]. repeat split; try assumption. cbn [ro_out ro_buffer]. exists b1, rest. auto.
Qed.

Lemma rounds_parse lib p x : Forall is_byte (sp_buf p) -> Forall is_byte x ->
  exists (rs : list Round) (fin : list Z) (cs : list Z) (cr : bool) (pd : Z), parse_rounds lib p x = (set_buf (with_counters p cs) fin, rs)
  /\ sparse lib p x = (set_buf (with_counters p cs) fin,
       if cr then Err IndexError else Ok (mkPR (messages rs) pd (8 * zlen fin) (errors rs)))
  /\ existsb is_leave rs = cr /\ tiled (sp_buf p ++ x) rs fin /\ Forall round_ok rs.
Proof.
  intros F Fx. assert (Fa : Forall is_byte (sp_buf p ++ x)) by (apply Forall_app; auto).
  destruct (runs_total lib (sp_skip p) _ _ Fa (Nat.le_refl _)) as (ms & es & cs & pd & cr & fin & R).
  destruct (rounds_runs _ _ _ _ _ _ _ _ _ R (length (sp_buf p ++ x)) (set_buf p (sp_buf p ++ x)) eq_refl eq_refl Fa (Nat.le_refl _))
    as (rs & RS & <- & <- & LV & T & OK).
  exists rs, fin, cs, cr, pd. rewrite (sparse_runs _ _ _ _ _ _ _ _ _ F Fx R).
  refine (conj _ (conj eq_refl (conj LV (conj T OK)))).
  unfold parse_rounds. cbv zeta. cbn [sp_buf set_buf] in *. rewrite RS, counters_set, set_set. reflexivity.
Qed.
