(** Several threads in one Parser: a call that is not disturbed. *)
From Coq Require Import ZifyBool ZifyNat.
From Verif Require Import SInside LSerial.
Set Implicit Arguments.

Lemma put_get A (l : list A) : forall i y, (i < length l)%nat -> nth_error (put i y l) i = Some y.
Proof. induction l as [|x l IH]; intros [|i] y H; cbn in *; try lia; [reflexivity|]. apply IH. lia. Qed.
Lemma put_put A (l : list A) : forall i x y, put i y (put i x l) = put i y l.
Proof. induction l as [|z l IH]; intros [|i] x y; cbn; try reflexivity. rewrite IH. reflexivity. Qed.
Lemma put_length A (l : list A) : forall i y, length (put i y l) = length l.
Proof. induction l as [|z l IH]; intros [|i] y; cbn; auto. Qed.
Lemma put_same A (l : list A) : forall i y, nth_error l i = Some y -> put i y l = l.
Proof. induction l as [|z l IH]; intros [|i] y H; cbn in *; try discriminate; [congruence|]. rewrite IH; auto. Qed.
Lemma put_nth A (l : list A) : forall i k y, nth_error (put i y l) k =
  if Nat.eqb i k then match nth_error l k with Some _ => Some y | None => None end else nth_error l k.
Proof. induction l as [|z l IH]; intros [|i] [|k] y; cbn; auto. destruct (Nat.eqb i k); reflexivity. Qed.
Lemma find_skip l : forall k r j, find_c0 l k = Some (r, j) -> k <= j /\ r = skipn (Z.to_nat (j - k)) l.
Proof.
  induction l as [|b l IH]; intros k r j H; cbn in H; [discriminate|]. destruct (b =? 192).
  - injection H as <- <-. split; [lia|]. rewrite Z.sub_diag. reflexivity.
  - apply IH in H as [L ->]. split; [lia|]. replace (Z.to_nat (j - k)) with (S (Z.to_nat (j - (k + 1)))) by lia. reflexivity.
Qed.
Lemma run_app lib a b : forall w, inside_run lib w (a ++ b) = match inside_run lib w a with Some v => inside_run lib v b | None => None end.
Proof. induction a as [|x a IH]; intro w; cbn; [reflexivity|]. destruct (inside_step lib w x); [apply IH | reflexivity]. Qed.
Lemma run_more lib i a b w v : inside_run lib w (repeat (IGo i) a) = Some v ->
  inside_run lib w (repeat (IGo i) (a + b)) = inside_run lib v (repeat (IGo i) b).
Proof. intro H. rewrite repeat_app, run_app, H. reflexivity. Qed.

(** the Parser [p], its buffer somewhere in the store *)
Definition mkI (st : list (list Z)) (c : nat) (p : SParser) (ps : list Place) (rs : list (nat * res PResult)) : Inside :=
  mkInside st c (sp_skip p) (sp_up p) (sp_down p) (sp_errs p) ps rs.

Section Alone.
Variable lib : bool.
Variable i : nat.
Variable ps : list Place.
Hypothesis Hi : (i < length ps)%nat.

Lemma load_step st c p u l rs :
  inside_step lib (mkI st c p (put i (PLoad u l) ps) rs) (IGo i) = Some (mkI st c p (put i (PHave u c l) ps) rs).
Proof. unfold inside_step, mkI. cbn [in_places]. rewrite put_get by exact Hi. cbn [put_place in_cur]. rewrite put_put. reflexivity. Qed.
Lemma use_step st c p u l rs b : nth_error st c = Some b ->
  inside_run lib (mkI st c p (put i (PLoad u l) ps) rs) (repeat (IGo i) 2)
  = Some (use lib i u c b l (mkI st c p (put i (PHave u c l) ps) rs)).
Proof.
  intro E. cbn [repeat inside_run]. rewrite load_step. unfold inside_step at 1, mkI at 1. cbn [in_places in_store].
  rewrite put_get by exact Hi. change (in_store (mkI st c p (put i (PHave u c l) ps) rs)) with st. cbn [mkI in_store]. rewrite E. reflexivity.
Qed.
Lemma place_mkI st c p x y rs : put_place i y (mkI st c p (put i x ps) rs) = mkI st c p (put i y ps) rs.
Proof. unfold put_place, mkI. rewrite put_put. reflexivity. Qed.
Lemma count_mkI st c p q rs k : count k (mkI st c p q rs) = mkI st c (bump p k) q rs.
Proof. destruct p as [b s u d e]. unfold count, mkI, bump. cbn. destruct (negb _); reflexivity. Qed.
Lemma finish_mkI st c p x rs r : finish i r (mkI st c p (put i x ps) rs) = mkI st c p (put i PIdle ps) (rs ++ [(i, r)]).
Proof. unfold finish, mkI. rewrite put_put. reflexivity. Qed.
Lemma set_buf_mkI st c p b q rs : mkI st c (set_buf p b) q rs = mkI st c p q rs.
Proof. reflexivity. Qed.
Lemma bump_buf p k : sp_buf (bump p k) = sp_buf p /\ sp_skip (bump p k) = sp_skip p.
Proof. unfold bump. destruct (negb _); auto. Qed.

(** thread [i] alone gets from one state to another *)
Definition gets (w v : Inside) : Prop := exists k, inside_run lib w (repeat (IGo i) k) = Some v.
Lemma gets_trans a b c : gets a b -> gets b c -> gets a c.
Proof. intros [k K] [n N]. exists (k + n)%nat. rewrite (@run_more lib i k n a b K). exact N. Qed.
Lemma gets_use st c p u l rs b w : nth_error st c = Some b ->
  use lib i u c b l (mkI st c p (put i (PHave u c l) ps) rs) = w ->
  gets (mkI st c p (put i (PLoad u l) ps) rs) w.
Proof. intros E <-. exists 2%nat. apply use_step, E. Qed.
Lemma store_step st c p b x l rs :
  inside_step lib (mkI st c p (put i (PStore b x l) ps) rs) (IGo i)
  = Some (mkI (st ++ [b]) (length st) p (put i match x with NMessage t m n => PLoad (UInfo (Some (t, m, n))) l | NError e => PLoad UTest (add_error e l) end ps) rs).
Proof.
  unfold inside_step, mkI. cbn [in_places]. rewrite put_get by exact Hi.
  destruct x; cbn [new_bytes put_place]; rewrite put_put; reflexivity.
Qed.
Lemma gets_store st c p b x l rs :
  gets (mkI st c p (put i (PStore b x l) ps) rs)
    (mkI (st ++ [b]) (length st) p (put i match x with NMessage t m n => PLoad (UInfo (Some (t, m, n))) l | NError e => PLoad UTest (add_error e l) end ps) rs).
Proof. exists 1%nat. cbn [repeat inside_run]. rewrite store_step. reflexivity. Qed.
Lemma new_get (st : list (list Z)) b : nth_error (st ++ [b]) (length st) = Some b.
Proof. rewrite nth_error_app2, Nat.sub_diag by lia. reflexivity. Qed.

Definition with_new (l : Locals) (es : list PErr) : Locals := mkLocals (lo_msgs l) (lo_parsed l) (lo_errors l) es.

(** skip_bad_buffer_content *)
Lemma gets_skip st c p e l rs b r : nth_error st c = Some (b :: r) ->
  exists st' c', gets (mkI st c p (put i (PLoad (UPop e) l) ps) rs)
    (mkI st' c' p (put i (PLoad UTest (add_error (mkPErr e (snd (skip_bad (b :: r)))) l)) ps) rs)
  /\ nth_error st' c' = Some (fst (skip_bad (b :: r))).
Proof.
  intro E. set (st1 := put c r st).
  assert (Lc : (c < length st)%nat) by (apply nth_error_Some; congruence).
  assert (E1 : nth_error st1 c = Some r) by (apply put_get, Lc).
  assert (G1 : gets (mkI st c p (put i (PLoad (UPop e) l) ps) rs) (mkI st1 c p (put i (PLoad (UIndex e) l) ps) rs)).
  { eapply gets_use; [exact E|]. cbn [use]. unfold put_bytes, mkI, put_place. rewrite put_put. reflexivity. }
  assert (G2 : gets (mkI st1 c p (put i (PLoad (UIndex e) l) ps) rs)
                 (mkI st1 c p (put i (PLoad (match find_c0 r 0 with Some (_, k) => USlice e k | None => ULeft e end) l) ps) rs)).
  { eapply gets_use; [exact E1|]. cbn [use]. apply place_mkI. }
  cbn [skip_bad]. destruct (find_c0 r 0) as [[q k]|] eqn:F.
  - apply find_skip in F as [K ->]. rewrite Z.sub_0_r. exists (st1 ++ [skipn (Z.to_nat k) r]), (length st1). cbn [fst snd].
    split; [|apply new_get]. eapply gets_trans; [exact G1|]. eapply gets_trans; [exact G2|].
    eapply gets_trans; [eapply gets_use; [exact E1 | cbn [use]; apply place_mkI]|]. apply gets_store.
  - exists (st1 ++ [[]]), (length st1). cbn [fst snd].
    split; [|apply new_get]. eapply gets_trans; [exact G1|]. eapply gets_trans; [exact G2|].
    eapply gets_trans; [eapply gets_use; [exact E1 | cbn [use]; apply place_mkI]|]. apply gets_store.
Qed.

(** parse_one_command_from_buffer *)
Lemma one_alone : forall fuel p l p' r, parse_one fuel lib p (lo_new l) = (p', r) -> r <> Err OutOfFuel ->
  forall st c rs, nth_error st c = Some (sp_buf p) ->
  exists st' c', nth_error st' c' = Some (sp_buf p') /\
  match r with
  | Err e => gets (mkI st c p (put i (PLoad UTest l) ps) rs) (mkI st' c' p' (put i PIdle ps) (rs ++ [(i, Err e)]))
  | Ok (None, _, es) => gets (mkI st c p (put i (PLoad UTest l) ps) rs) (mkI st' c' p' (put i (PLoad (UInfo None) (with_new l es)) ps) rs)
  | Ok (Some (t, m), n, es) => exists n', n = Z.of_nat n' /\
      gets (mkI st c p (put i (PLoad UTest l) ps) rs) (mkI st' c' p' (put i (PLoad (UInfo (Some (t, m, n'))) (with_new l es)) ps) rs)
  end.
Proof.
  induction fuel as [|fuel IH]; intros p l p' r H NF st c rs E; [cbn in H; congruence|].
  cbn [parse_one] in H. destruct (sp_buf p) as [|b0 r0] eqn:B.
  - injection H as <- <-. exists st, c. rewrite B. split; [exact E|]. eapply gets_use; [exact E|]. cbn [use]. rewrite place_mkI.
    destruct l; reflexivity.
  - rewrite <- B in H. assert (E' : nth_error st c = Some (sp_buf p)) by congruence. set (buf := sp_buf p) in *.
    assert (G1 : gets (mkI st c p (put i (PLoad UTest l) ps) rs) (mkI st c p (put i (PLoad (UHeader buf) l) ps) rs)).
    { eapply gets_trans; [eapply gets_use; [exact E'|]; cbn [use]; rewrite place_mkI, B; reflexivity|].
      eapply gets_use; [exact E'|]. cbn [use]. apply place_mkI. }
    (* the exceptions *)
    assert (X : forall q e, sp_buf q = buf ->
      (if is_read_error lib e then (q, Ok (None, 0, lo_new l)) else if no_args e then (q, Err IndexError)
       else let (b, n) := skip_bad (sp_buf q) in parse_one fuel lib (set_buf q b) (lo_new l ++ [mkPErr e n])) = (p', r) ->
      gets (mkI st c p (put i (PLoad (UHeader buf) l) ps) rs) (handle lib i e l (mkI st c q (put i (PHave (UHeader buf) c l) ps) rs)) ->
      exists st' c', nth_error st' c' = Some (sp_buf p') /\
      match r with
      | Err e => gets (mkI st c p (put i (PLoad UTest l) ps) rs) (mkI st' c' p' (put i PIdle ps) (rs ++ [(i, Err e)]))
      | Ok (None, _, es) => gets (mkI st c p (put i (PLoad UTest l) ps) rs) (mkI st' c' p' (put i (PLoad (UInfo None) (with_new l es)) ps) rs)
      | Ok (Some (t, m), n, es) => exists n', n = Z.of_nat n' /\
          gets (mkI st c p (put i (PLoad UTest l) ps) rs) (mkI st' c' p' (put i (PLoad (UInfo (Some (t, m, n'))) (with_new l es)) ps) rs)
      end).
    { intros q e Bq Hq G2. unfold handle in G2. destruct (is_read_error lib e).
      - injection Hq as <- <-. exists st, c. split; [congruence|]. eapply gets_trans; [exact G1|]. rewrite place_mkI in G2.
        destruct l; exact G2.
      - destruct (no_args e).
        + injection Hq as <- <-. exists st, c. split; [congruence|]. eapply gets_trans; [exact G1|]. rewrite finish_mkI in G2. exact G2.
        + rewrite place_mkI in G2. rewrite Bq in Hq. fold buf in B. rewrite B in Hq.
          destruct (@gets_skip st c q e l rs b0 r0 ltac:(congruence)) as (st1 & c1 & G3 & N1).
          destruct (skip_bad (b0 :: r0)) as [nb n] eqn:Sk. cbn [fst snd] in *.
          destruct (IH (set_buf q nb) (add_error (mkPErr e n) l) p' r Hq NF st1 c1 rs N1) as (st' & c' & N' & R).
          exists st', c'. split; [exact N'|]. rewrite set_buf_mkI in R.
          assert (G : gets (mkI st c p (put i (PLoad UTest l) ps) rs) (mkI st1 c1 q (put i (PLoad UTest (add_error (mkPErr e n) l)) ps) rs)).
          { eapply gets_trans; [exact G1|]. eapply gets_trans; [exact G2|]. exact G3. }
          destruct r as [[[[[t m]|] k] es]|e'].
          * destruct R as (n' & -> & R). exists n'. split; [reflexivity|]. eapply gets_trans; [exact G | exact R].
          * eapply gets_trans; [exact G | exact R].
          * eapply gets_trans; [exact G | exact R]. }
    unfold parse_header in H. fold buf in H.
    assert (U : gets (mkI st c p (put i (PLoad (UHeader buf) l) ps) rs)
                  (use lib i (UHeader buf) c buf l (mkI st c p (put i (PHave (UHeader buf) c l) ps) rs)))
      by (eapply gets_use; [exact E' | reflexivity]).
    cbn [use] in U.
    destruct (header_fields (zlen buf) (stream_of buf)) as [[[[[[[counter t] len] c1] c2] payload] s']|e].
    + destruct (calculate_crc payload) as [h o]. rewrite count_mkI in U.
      destruct (bump_buf p counter) as [Bb Bs]. set (q := bump p counter) in *.
      change (in_skip (mkI st c q (put i (PHave (UHeader buf) c l) ps) rs)) with (sp_skip q) in U. rewrite Bs in U.
      destruct (negb (h =? c1) || negb (o =? c2)).
      * apply (X q ParseError Bb H U).
      * destruct (parse_body (sp_skip p) t len s') as [[m s2]|e]; cbn [rbind] in H, U; [|apply (X q e Bb H U)].
        injection H as <- <-. rewrite place_mkI in U.
        exists (st ++ [skipn (pos s2 / 8) buf]), (length st). split; [rewrite new_get, Bb; reflexivity|].
        exists (pos s2). split; [reflexivity|]. eapply gets_trans; [exact G1|]. eapply gets_trans; [exact U|].
        eapply gets_trans; [eapply gets_use; [exact E'|]; cbn [use]; apply place_mkI|].
        rewrite set_buf_mkI. destruct l. apply gets_store.
    + apply (X p e eq_refl H U).
Qed.
(** parse_buffer *)
Lemma buffer_alone : forall fuel p l p' r, lo_new l = [] ->
  parse_buffer fuel lib p (lo_msgs l) (lo_parsed l) (lo_errors l) = (p', r) -> r <> Err OutOfFuel ->
  forall st c rs, nth_error st c = Some (sp_buf p) ->
  exists st' c', nth_error st' c' = Some (sp_buf p')
  /\ gets (mkI st c p (put i (PLoad UTest l) ps) rs) (mkI st' c' p' (put i PIdle ps) (rs ++ [(i, r)])).
Proof.
  induction fuel as [|fuel IH]; intros p l p' r L0 H NF st c rs E; [cbn in H; congruence|].
  cbn [parse_buffer] in H. destruct (parse_one (S (length (sp_buf p))) lib p []) as [q x] eqn:O.
  rewrite <- L0 in O.
  assert (NF1 : x <> Err OutOfFuel) by (intros ->; congruence).
  destruct (one_alone _ _ _ O NF1 st c rs E) as (st1 & c1 & N1 & R).
  destruct x as [[[[[t m]|] n] es]|e].
  - destruct R as (n' & -> & R).
    set (l1 := mkLocals (lo_msgs l ++ [(t, m)]) (lo_parsed l + Z.of_nat n') (lo_errors l ++ es) []).
    destruct (IH q l1 p' r eq_refl H NF st1 c1 rs N1) as (st' & c' & N' & G). exists st', c'. split; [exact N'|].
    eapply gets_trans; [exact R|]. eapply gets_trans; [|exact G].
    eapply gets_use; [exact N1|]. cbn [use]. apply place_mkI.
  - injection H as <- <-. exists st1, c1. split; [exact N1|]. eapply gets_trans; [exact R|].
    eapply gets_use; [exact N1|]. cbn [use]. apply finish_mkI.
  - injection H as <- <-. exists st1, c1. split; [exact N1 | exact R].
Qed.
End Alone.
