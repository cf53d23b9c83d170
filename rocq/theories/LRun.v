(** The receive loop as a relation on buffers. *)
From Coq Require Import ZifyBool ZifyNat.
From Verif Require Export LSerial.
Ltac Zify.zify_post_hook ::= Z.div_mod_to_equations.

Definition olist {A} (o : option A) : list A := match o with Some a => [a] | None => [] end.

(** [runs lib skip buf msgs errs counters parsed crashed final] *)
Inductive runs (lib skip : bool) : list Z -> list (Z * Msg) -> list PErr -> list Z -> Z -> bool -> list Z -> Prop :=
| runs_empty : runs lib skip [] [] [] [] 0 false []
| runs_wait buf o e : buf <> [] -> attempt skip buf = (o, Err e) -> is_read_error lib e = true ->
    runs lib skip buf [] [] (olist o) 0 false buf
| runs_crash buf o e : buf <> [] -> attempt skip buf = (o, Err e) -> is_read_error lib e = false -> no_args e = true ->
    runs lib skip buf [] [] (olist o) 0 true buf
| runs_got buf o t m n ms es cs pd cr fin : buf <> [] -> attempt skip buf = (o, Ok (t, m, n)) ->
    runs lib skip (skipn (n / 8) buf) ms es cs pd cr fin ->
    runs lib skip buf ((t, m) :: ms) es (olist o ++ cs) (Z.of_nat n + pd) cr fin
| runs_skip buf o e ms es cs pd cr fin : buf <> [] -> attempt skip buf = (o, Err e) ->
    is_read_error lib e = false -> no_args e = false ->
    runs lib skip (fst (skip_bad buf)) ms es cs pd cr fin ->
    runs lib skip buf ms (mkPErr e (snd (skip_bad buf)) :: es) (olist o ++ cs) pd cr fin.

(** ** Skipping *)
Lemma find_c0_spec l : forall i,
  match find_c0 l i with
  | Some (l', j) => exists pre, l = pre ++ l' /\ Forall (fun b => b <> 192) pre /\ j = i + zlen pre /\ hd 0 l' = 192
  | None => Forall (fun b => b <> 192) l
  end.
Proof.
  induction l as [|b r IH]; intros i; cbn [find_c0]; [constructor|].
  destruct (Z.eqb_spec b 192) as [->|N].
  - exists []. repeat split; try constructor. unfold zlen. cbn [length]. lia.
  - specialize (IH (i + 1)). destruct (find_c0 r (i + 1)) as [[l' j]|].
    + destruct IH as (pre & -> & F & -> & H). exists (b :: pre). rewrite zlen_cons.
      repeat split; [constructor; assumption | lia | exact H].
    + constructor; assumption.
Qed.
(** bytes from the first C0 on *)
Fixpoint drop_c0 (l : list Z) : list Z :=
  match l with [] => [] | b :: r => if b =? 192 then l else drop_c0 r end.
Lemma find_drop l : forall i, match find_c0 l i with Some (l', _) => l' | None => [] end = drop_c0 l.
Proof. induction l as [|b r IH]; intros i; cbn [find_c0 drop_c0]; [reflexivity|]. destruct (b =? 192); [reflexivity | apply IH]. Qed.
Lemma skip_bad_buf b r : fst (skip_bad (b :: r)) = drop_c0 r.
Proof.
  cbn [skip_bad]. pose proof (find_drop r 0) as K. destruct (find_c0 r 0) as [[l i]|]; cbn [fst]; congruence.
Qed.
Lemma drop_c0_suffix l : exists pre, l = pre ++ drop_c0 l /\ Forall (fun b => b <> 192) pre.
Proof.
  induction l as [|b r IH]; cbn [drop_c0]; [exists []; auto|]. destruct (Z.eqb_spec b 192) as [->|N].
  - exists []. auto.
  - destruct IH as (pre & E & F). exists (b :: pre). split; [cbn [app]; congruence | constructor; assumption].
Qed.
Lemma drop_c0_head l : drop_c0 l = [] \/ exists r, drop_c0 l = 192 :: r.
Proof.
  induction l as [|b r IH]; cbn [drop_c0]; [auto|]. destruct (Z.eqb_spec b 192) as [->|N]; [right; eauto | exact IH].
Qed.
Lemma skip_bad_count b r : snd (skip_bad (b :: r)) = zlen (b :: r) - zlen (drop_c0 r).
Proof.
  cbn [skip_bad]. pose proof (find_drop r 0) as K. pose proof (find_c0_spec r 0) as S.
  destruct (find_c0 r 0) as [[l i]|]; cbn [snd]; rewrite <- K, zlen_cons.
  - destruct S as (pre & -> & _ & -> & _). rewrite zlen_app. lia.
  - change (zlen (@nil Z)) with 0. lia.
Qed.
Lemma drop_c0_app l x : drop_c0 (l ++ x) = match drop_c0 l with [] => drop_c0 x | _ => drop_c0 l ++ x end.
Proof.
  induction l as [|b r IH]; cbn [app drop_c0]; [reflexivity|]. destruct (b =? 192); [reflexivity | exact IH].
Qed.
Lemma drop_c0_length l : (length (drop_c0 l) <= length l)%nat.
Proof. destruct (drop_c0_suffix l) as (pre & E & _). rewrite E at 2. rewrite app_length. lia. Qed.
Lemma drop_c0_bytes l : Forall is_byte l -> Forall is_byte (drop_c0 l).
Proof. destruct (drop_c0_suffix l) as (pre & E & _). intros F. rewrite E in F. apply Forall_app in F. tauto. Qed.
Lemma skipn_bytes n l : Forall is_byte l -> Forall is_byte (skipn n l).
Proof. intros F. rewrite <- (firstn_skipn n l) in F. apply Forall_app in F. tauto. Qed.
Lemma skip_bad_bytes buf : Forall is_byte buf -> Forall is_byte (fst (skip_bad buf)).
Proof.
  intros F. destruct buf as [|b r]; [constructor|]. rewrite skip_bad_buf. apply drop_c0_bytes. inversion F; assumption.
Qed.
Lemma skip_bad_shorter buf : buf <> [] -> (length (fst (skip_bad buf)) < length buf)%nat.
Proof.
  destruct buf as [|b r]; [congruence|]. intros _. rewrite skip_bad_buf. pose proof (drop_c0_length r). cbn [length]. lia.
Qed.

(** ** The loop terminates and computes the relation *)
Lemma got_shorter skip buf o t m n : Forall is_byte buf -> buf <> [] -> attempt skip buf = (o, Ok (t, m, n)) ->
  (7 <= n / 8 <= length buf)%nat.
Proof.
  intros F N E. apply attempt_ok in E; try assumption.
  destruct E as (c & payload & rest & k & _ & -> & -> & _ & _ & _ & _ & _ & L).
  rewrite app_length, frame_length. rewrite app_length in L.
  replace ((56 + 8 * k) / 8)%nat with (7 + k)%nat by lia. lia.
Qed.
Lemma runs_total lib skip n : forall buf, Forall is_byte buf -> (length buf <= n)%nat ->
  exists ms es cs pd cr fin, runs lib skip buf ms es cs pd cr fin.
Proof.
  induction n as [|n IH]; intros buf F L.
  - destruct buf; [|cbn [length] in L; lia]. do 6 eexists. constructor.
  - destruct buf as [|b r] eqn:Eb; [do 6 eexists; constructor|].
    rewrite <- Eb in *. assert (N : buf <> []) by (subst; discriminate). clear Eb.
    destruct (attempt skip buf) as [o [[[t m] k]|e]] eqn:E.
    + pose proof (got_shorter _ _ _ _ _ _ F N E) as K.
      destruct (IH (skipn (k / 8) buf)) as (ms & es & cs & pd & cr & fin & R).
      { apply skipn_bytes. exact F. }
      { rewrite skipn_length. lia. }
      do 6 eexists. eapply runs_got; eauto.
    + destruct (is_read_error lib e) eqn:E1; [do 6 eexists; eapply runs_wait; eauto|].
      destruct (no_args e) eqn:E2; [do 6 eexists; eapply runs_crash; eauto|].
      pose proof (skip_bad_shorter buf N) as K.
      destruct (IH (fst (skip_bad buf))) as (ms & es & cs & pd & cr & fin & R).
      { apply skip_bad_bytes. exact F. }
      { lia. }
      do 6 eexists. eapply runs_skip; eauto.
Qed.
Lemma runs_det lib skip buf ms es cs pd cr fin : runs lib skip buf ms es cs pd cr fin ->
  forall ms' es' cs' pd' cr' fin', runs lib skip buf ms' es' cs' pd' cr' fin' ->
  ms = ms' /\ es = es' /\ cs = cs' /\ pd = pd' /\ cr = cr' /\ fin = fin'.
Proof.
  induction 1 as [|buf o e N E H|buf o e N E H1 H2|buf o t m n ms es cs pd cr fin N E R IH|buf o e ms es cs pd cr fin N E H1 H2 R IH];
  intros ms' es' cs' pd' cr' fin' R';
  inversion R' as [|buf' o' e' N' E' H'|buf' o' e' N' E' H1' H2'|buf' o' t' m' n' ms1 es1 cs1 pd1 cr1 fin1 N' E' R1|buf' o' e' ms1 es1 cs1 pd1 cr1 fin1 N' E' H1' H2' R1]; subst; try congruence;
  try (rewrite E in E'; injection E' as ?; subst; try congruence; auto 10).
  all: try (destruct (IH _ _ _ _ _ _ R1) as (-> & -> & -> & -> & -> & ->); auto 10).
  auto 10.
Qed.

(** ** parse_one and parse_buffer *)
Definition with_counters (p : SParser) (cs : list Z) : SParser := fold_left bump cs p.
Lemma bump_buf p c : sp_buf (bump p c) = sp_buf p.
Proof. unfold bump. destruct (negb _); reflexivity. Qed.
Lemma bump_skip p c : sp_skip (bump p c) = sp_skip p.
Proof. unfold bump. destruct (negb _); reflexivity. Qed.
Lemma bump_up p c : sp_up (bump p c) = sp_up p.
Proof. unfold bump. destruct (negb _); reflexivity. Qed.
Lemma counters_buf cs : forall p, sp_buf (with_counters p cs) = sp_buf p.
Proof. induction cs as [|c cs IH]; intros p; [reflexivity|]. cbn [with_counters fold_left]. fold (with_counters (bump p c) cs). rewrite IH. apply bump_buf. Qed.
Lemma counters_skip cs : forall p, sp_skip (with_counters p cs) = sp_skip p.
Proof. induction cs as [|c cs IH]; intros p; [reflexivity|]. cbn [with_counters fold_left]. fold (with_counters (bump p c) cs). rewrite IH. apply bump_skip. Qed.
Lemma counters_up cs : forall p, sp_up (with_counters p cs) = sp_up p.
Proof. induction cs as [|c cs IH]; intros p; [reflexivity|]. cbn [with_counters fold_left]. fold (with_counters (bump p c) cs). rewrite IH. apply bump_up. Qed.
Lemma bump_set p c b : bump (set_buf p b) c = set_buf (bump p c) b.
Proof. unfold bump, set_buf. cbn [sp_down sp_buf sp_skip sp_up sp_errs]. destruct (negb _); reflexivity. Qed.
Lemma counters_set cs : forall p b, with_counters (set_buf p b) cs = set_buf (with_counters p cs) b.
Proof.
  induction cs as [|c cs IH]; intros p b; [reflexivity|]. cbn [with_counters fold_left].
  rewrite bump_set. apply IH.
Qed.
Lemma counters_app p a b : with_counters p (a ++ b) = with_counters (with_counters p a) b.
Proof. apply fold_left_app. Qed.
Lemma set_set p a b : set_buf (set_buf p a) b = set_buf p b.
Proof. reflexivity. Qed.
Lemma set_same p : set_buf p (sp_buf p) = p.
Proof. destruct p; reflexivity. Qed.

Lemma header_attempt p : sp_buf p <> [] ->
  (let (p', hdr) := parse_header p (stream_of (sp_buf p)) in
   (p', match hdr with
        | Err e => Err e
        | Ok ((cmd_len, mt), s) => let! (m, s') := parse_body (sp_skip p) mt cmd_len s in Ok (mt, m, pos s')
        end))
  = let (o, r) := attempt (sp_skip p) (sp_buf p) in (with_counters p (olist o), r).
Proof.
  intros _. unfold parse_header, attempt.
  destruct (header_fields (zlen (sp_buf p)) (stream_of (sp_buf p))) as [[[[[[[c t] n] h] l] payload] s]|e]; [|reflexivity].
  destruct (calculate_crc payload) as [a b]. destruct (negb (a =? h) || negb (b =? l)); reflexivity.
Qed.
Lemma parse_one_eq f lib p errors : sp_buf p <> [] ->
  parse_one (S f) lib p errors =
  let (o, r) := attempt (sp_skip p) (sp_buf p) in
  let p' := with_counters p (olist o) in
  match r with
  | Ok (mt, m, n) => (set_buf p' (skipn (n / 8) (sp_buf p)), Ok (Some (mt, m), Z.of_nat n, errors))
  | Err e => if is_read_error lib e then (p', Ok (None, 0, errors))
             else if no_args e then (p', Err IndexError)
             else parse_one f lib (set_buf p' (fst (skip_bad (sp_buf p)))) (errors ++ [mkPErr e (snd (skip_bad (sp_buf p)))])
  end.
Proof.
  intros N. cbn [parse_one]. destruct (sp_buf p) as [|b r] eqn:Eb; [congruence|]. rewrite <- Eb in *.
  pose proof (header_attempt p N) as K.
  destruct (parse_header p (stream_of (sp_buf p))) as [p' hdr]. destruct (attempt (sp_skip p) (sp_buf p)) as [o r'].
  injection K as -> K. rewrite K. cbv zeta. rewrite !counters_buf.
  destruct r' as [[[mt m] n]|e]; [reflexivity|].
  destruct (is_read_error lib e); [reflexivity|]. destruct (no_args e); [reflexivity|].
  destruct (skip_bad (sp_buf p)) as [bb nn]. reflexivity.
Qed.

Definition one_result (lib : bool) (p : SParser) (errors : list PErr)
  (r : SParser * res (option (Z * Msg) * Z * list PErr)) : Prop :=
  forall ms es cs pd cr fin, runs lib (sp_skip p) (sp_buf p) ms es cs pd cr fin ->
  match r with
  | (p', Err e) => e = IndexError /\ cr = true /\ ms = [] /\ pd = 0 /\ p' = set_buf (with_counters p cs) fin
  | (p', Ok (None, _, es')) => cr = false /\ ms = [] /\ pd = 0 /\ es' = errors ++ es
        /\ p' = set_buf (with_counters p cs) fin
  | (p', Ok (Some m, n, es')) => exists ms2 es1 es2 cs1 cs2 pd2, ms = m :: ms2 /\ es = es1 ++ es2 /\ cs = cs1 ++ cs2
        /\ pd = n + pd2 /\ es' = errors ++ es1 /\ p' = set_buf (with_counters p cs1) (sp_buf p')
        /\ (length (sp_buf p') < length (sp_buf p))%nat
        /\ Forall is_byte (sp_buf p')
        /\ runs lib (sp_skip p) (sp_buf p') ms2 es2 cs2 pd2 cr fin
  end.
Lemma parse_one_runs lib f : forall p errors, Forall is_byte (sp_buf p) -> (length (sp_buf p) < f)%nat ->
  one_result lib p errors (parse_one f lib p errors).
Proof.
  induction f as [|f IH]; intros p errors F L; [lia|]. intros ms es cs pd cr fin R.
  destruct (sp_buf p) as [|b r] eqn:Eb.
  - cbn [parse_one]. rewrite Eb. inversion R; subst; try congruence. rewrite app_nil_r.
    cbn [with_counters fold_left]. rewrite <- Eb, set_same. auto 10.
  - rewrite <- Eb in *. assert (N : sp_buf p <> []) by (rewrite Eb; discriminate). clear Eb.
    rewrite parse_one_eq by exact N.
    inversion R as [|buf' o' e' N' E' H'|buf' o' e' N' E' H1' H2'|buf' o' t' m' n' ms1 es1 cs1 pd1 cr1 fin1 N' E' R1|buf' o' e' ms1 es1 cs1 pd1 cr1 fin1 N' E' H1' H2' R1]; subst; try congruence; rewrite E'; cbv zeta iota beta.
    + rewrite H'. rewrite app_nil_r. refine (conj eq_refl (conj eq_refl (conj eq_refl (conj eq_refl _)))).
      symmetry. rewrite <- (counters_buf (olist o') p) . apply set_same.
    + rewrite H1', H2'. refine (conj eq_refl (conj eq_refl (conj eq_refl (conj eq_refl _)))).
      symmetry. rewrite <- (counters_buf (olist o') p) . apply set_same.
    + exists ms1, [], es, (olist o'), cs1, pd1. rewrite app_nil_r.
      pose proof (got_shorter _ _ _ _ _ _ F N E') as K.
      cbn [sp_buf set_buf]. rewrite skipn_length.
      refine (conj eq_refl (conj eq_refl (conj eq_refl (conj eq_refl (conj eq_refl (conj eq_refl (conj _ (conj _ R1)))))))); [lia | apply skipn_bytes; exact F].
    + rewrite H1', H2'.
      set (p1 := set_buf (with_counters p (olist o')) (fst (skip_bad (sp_buf p)))).
      pose proof (skip_bad_shorter (sp_buf p) N) as K.
      specialize (IH p1 (errors ++ [mkPErr e' (snd (skip_bad (sp_buf p)))])).
      assert (S1 : sp_skip p1 = sp_skip p) by (unfold p1; cbn [set_buf sp_skip]; apply counters_skip).
      assert (B1 : sp_buf p1 = fst (skip_bad (sp_buf p))) by reflexivity.
      assert (IH' := IH ltac:(rewrite B1; apply skip_bad_bytes; exact F) ltac:(rewrite B1; lia)). clear IH.
      unfold one_result in IH'. rewrite S1, B1 in IH'. specialize (IH' _ _ _ _ _ _ R1).
      assert (W : forall xs b, set_buf (with_counters p1 xs) b = set_buf (with_counters p (olist o' ++ xs)) b).
      { intros xs b'. unfold p1. rewrite counters_set, set_set, counters_app. reflexivity. }
      destruct (parse_one f lib p1 (errors ++ [mkPErr e' (snd (skip_bad (sp_buf p)))])) as [p' [[[[m|] n] es']|e]].
      * destruct IH' as (ms2 & es1' & es2 & cs1' & cs2 & pd2 & -> & -> & -> & -> & -> & Hp & Hl & Hb & R2).
        exists ms2, (mkPErr e' (snd (skip_bad (sp_buf p))) :: es1'), es2, (olist o' ++ cs1'), cs2, pd2.
        rewrite W in Hp. rewrite <- !app_assoc. cbn [app].
        refine (conj eq_refl (conj eq_refl (conj eq_refl (conj eq_refl (conj eq_refl (conj Hp (conj _ (conj Hb R2)))))))); lia.
      * destruct IH' as (-> & -> & -> & -> & ->). rewrite <- app_assoc, W. cbn [app]. auto 10.
      * destruct IH' as (-> & -> & -> & -> & ->). rewrite W. auto 10.
Qed.
Lemma parse_buffer_runs lib f : forall p msgs parsed errors ms es cs pd cr fin,
  Forall is_byte (sp_buf p) -> (length (sp_buf p) < f)%nat ->
  runs lib (sp_skip p) (sp_buf p) ms es cs pd cr fin ->
  parse_buffer f lib p msgs parsed errors =
  (set_buf (with_counters p cs) fin,
   if cr then Err IndexError else Ok (mkPR (msgs ++ ms) (parsed + pd) (8 * zlen fin) (errors ++ es))).
Proof.
  induction f as [|f IH]; intros p msgs parsed errors ms es cs pd cr fin F L R; [lia|].
  cbn [parse_buffer]. pose proof (parse_one_runs lib (S (length (sp_buf p))) p [] F (Nat.lt_succ_diag_r _)) as K.
  specialize (K _ _ _ _ _ _ R).
  destruct (parse_one (S (length (sp_buf p))) lib p []) as [p' [[[[m|] n] es']|e]].
  - destruct K as (ms2 & es1 & es2 & cs1 & cs2 & pd2 & -> & -> & -> & -> & -> & Hp & Hl & Hb & R2).
    assert (S1 : sp_skip p' = sp_skip p) by (rewrite Hp; cbn [set_buf sp_skip]; apply counters_skip).
    rewrite (IH p' _ _ _ ms2 es2 cs2 pd2 cr fin); [|exact Hb | lia | rewrite S1; exact R2].
    f_equal.
    + rewrite Hp, counters_set, set_set, counters_app. reflexivity.
    + destruct cr; [reflexivity|]. rewrite <- !app_assoc, Z.add_assoc. reflexivity.
  - destruct K as (-> & -> & -> & -> & ->). cbn [sp_buf set_buf]. rewrite !app_nil_r, Z.add_0_r. reflexivity.
  - destruct K as (-> & -> & -> & -> & ->). reflexivity.
Qed.
Lemma sparse_runs lib p x ms es cs pd cr fin :
  Forall is_byte (sp_buf p) -> Forall is_byte x ->
  runs lib (sp_skip p) (sp_buf p ++ x) ms es cs pd cr fin ->
  sparse lib p x = (set_buf (with_counters p cs) fin,
                    if cr then Err IndexError else Ok (mkPR ms pd (8 * zlen fin) es)).
Proof.
  intros F Fx R. unfold sparse. rewrite (parse_buffer_runs lib _ _ _ _ _ ms es cs pd cr fin).
  - rewrite counters_set, set_set. reflexivity.
  - cbn [set_buf sp_buf]. apply Forall_app; auto.
  - cbn [set_buf sp_buf]. lia.
  - exact R.
Qed.
Lemma sparse_inv lib p x p' r : Forall is_byte (sp_buf p) -> Forall is_byte x -> sparse lib p x = (p', r) ->
  exists ms es cs pd cr fin, runs lib (sp_skip p) (sp_buf p ++ x) ms es cs pd cr fin
   /\ p' = set_buf (with_counters p cs) fin
   /\ r = if cr then Err IndexError else Ok (mkPR ms pd (8 * zlen fin) es).
Proof.
  intros F Fx E. assert (Fa : Forall is_byte (sp_buf p ++ x)) by (apply Forall_app; auto).
  destruct (runs_total lib (sp_skip p) _ _ Fa (Nat.le_refl _)) as (ms & es & cs & pd & cr & fin & R).
  rewrite (sparse_runs _ _ _ _ _ _ _ _ _ F Fx R) in E. injection E as <- <-. eauto 12.
Qed.
