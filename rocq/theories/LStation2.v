(** C102: never two readers at once. *)
From Coq Require Import Lia.
From Verif Require Import LInside LInside2 LInside3 LInside5.
From Verif Require Import SStation MReaders LReaders LReaders2 LReaders3 LReaders4 LReaders6 LStation.
Set Implicit Arguments.
Close Scope Z_scope.

Lemma obo_snoc lib w ls cs w1 : one_by_one lib w ls cs w1 -> forall i msg k w2,
  inside_run lib w1 (ICall i msg :: repeat (IGo i) k) = Some w2 -> nth_error (in_places w2) i = Some PIdle ->
  one_by_one lib w (ls ++ ICall i msg :: repeat (IGo i) k) (cs ++ [(i, msg)]) w2.
Proof.
  induction 1 as [w|w j m q wa ls cs wb R I O IH]; intros i msg k w2 R2 I2.
  - cbn [app]. pose proof (@obo_call lib w i msg k w2 [] [] w2 R2 I2 (obo_nil lib w2)) as H. rewrite app_nil_r in H. exact H.
  - cbn [app]. rewrite <- app_assoc. eapply obo_call; [exact R | exact I|]. apply IH; assumption.
Qed.
Lemma fed_app lib a : forall p b, fed lib p (a ++ b) = let (p1, x) := fed lib p a in let (p2, y) := fed lib p1 b in (p2, x ++ y).
Proof.
  induction a as [|z a IH]; intros p b; cbn [app fed]; [destruct (fed lib p b); reflexivity|].
  destruct (sparse lib p [z]) as [p1 x]. rewrite IH. destruct (fed lib p1 a) as [p2 xs]. destruct (fed lib p2 b). reflexivity.
Qed.
Lemma in_turn_fed lib (cs : list (nat * Z)) : forall p, fst (in_turn lib p (map (fun x => (fst x, [snd x])) cs)) = fst (fed lib p (map snd cs))
  /\ map snd (snd (in_turn lib p (map (fun x => (fst x, [snd x])) cs))) = snd (fed lib p (map snd cs)).
Proof.
  induction cs as [|[i b] cs IH]; intro p; cbn [map in_turn fed fst snd]; [auto|].
  destruct (sparse lib p [b]) as [p1 x]. specialize (IH p1) as [A B].
  destruct (in_turn lib p1 (map (fun x => (fst x, [snd x])) cs)) as [p2 xs]. destruct (fed lib p1 (map snd cs)) as [p3 ys].
  cbn [fst snd map] in *. split; congruence.
Qed.

Lemma live_two w i j : nth_error (k_threads w) i <> None -> (live w <= 1) -> forall t u, nth_error (k_threads w) i = Some t ->
  nth_error (k_threads w) j = Some u -> alive_reader t = true -> alive_reader u = true -> i = j.
Proof.
  intros _ L t u Ei Ej At Au. unfold live in L. revert i j Ei Ej L.
  induction (k_threads w) as [|x r IH]; intros i j Ei Ej L; [destruct i; discriminate|].
  assert (Q : forall k y, nth_error r k = Some y -> alive_reader y = true -> 1 <= length (filter alive_reader r)).
  { intros k y E A. assert (In y (filter alive_reader r)) as I by (apply filter_In; split; [eapply nth_error_In; exact E | exact A]).
    destruct (filter alive_reader r); [destruct I | cbn; lia]. }
  cbn [filter] in L. destruct i as [|i], j as [|j]; cbn [nth_error] in *.
  - reflexivity.
  - injection Ei as ->. rewrite At in L. cbn [length] in L. specialize (Q _ _ Ej Au). lia.
  - injection Ej as ->. rewrite Au in L. cbn [length] in L. specialize (Q _ _ Ei At). lia.
  - f_equal. apply IH; try assumption. destruct (alive_reader x); cbn [length] in L; lia.
Qed.

(** no result before the end of the call *)
Lemma results_kept lib i w w' y : inside_step lib w (IGo i) = Some w' -> nth_error (in_places w') i = Some y -> y <> PIdle ->
  in_results w' = in_results w.
Proof.
  assert (Pl : forall k x u, in_results (put_place k x u) = in_results u) by (intros ? ? []; reflexivity).
  assert (Pb : forall k x u, in_results (put_bytes k x u) = in_results u) by (intros ? ? []; reflexivity).
  assert (Nb : forall x u, in_results (new_bytes x u) = in_results u) by (intros ? []; reflexivity).
  assert (Cn : forall x u, in_results (count x u) = in_results u) by (intros ? []; reflexivity).
  intros S E N. cbn [inside_step] in S. destruct (nth_error (in_places w) i) as [x|] eqn:X; [|discriminate].
  assert (L : i < length (in_places w)) by (apply nth_error_Some; congruence).
  assert (Fi : forall r u, length (in_places u) = length (in_places w) -> finish i r u = w' -> False).
  { intros r u Lu <-. apply N. rewrite finish_at in E by lia. congruence. }
  assert (Ha : forall e l u, length (in_places u) = length (in_places w) -> in_results u = in_results w -> handle lib i e l u = w' -> in_results w' = in_results w).
  { intros e l u Lu Ru Hu. unfold handle in Hu. destruct (is_read_error lib e); [rewrite <- Hu, Pl; exact Ru|].
    destruct (no_args e); [exfalso; eapply Fi; eassumption | rewrite <- Hu, Pl; exact Ru]. }
  destruct x as [|u l|u r l|b [t m n|e] l]; [discriminate|..].
  - injection S as <-. apply Pl.
  - destruct (nth_error (in_store w) r) as [b|]; [|discriminate]. injection S as S.
    destruct u as [msg| | |s|t m n|e|e|e k|e|[[[t m] n]|]]; cbn [use] in S; try (rewrite <- S, ?Pl, ?Pb; reflexivity).
    + destruct (header_fields (zlen b) (stream_of s)) as [[[[[[[counter t] len] c1] c2] payload] s']|e]; [|eapply Ha; [..|exact S]; reflexivity].
      destruct (calculate_crc payload) as [h o].
      match type of S with context[match ?x with Ok _ => _ | Err _ => _ end] => destruct x as [[m n]|e] end.
      * rewrite <- S, Pl. apply Cn.
      * eapply Ha; [..|exact S]; [apply length_count | apply Cn].
    + destruct b; rewrite <- S, ?Pl, ?Pb; reflexivity.
    + exfalso. eapply Fi; [|exact S]. reflexivity.
  - injection S as <-. rewrite Pl. apply Nb.
  - injection S as <-. rewrite Pl. apply Nb.
Qed.
(** the Parser's side of a run without two readers at once *)
Inductive orderly_in (lib : bool) (p : SParser) (m : nat) (h : list Z) (v : Inside) : Prop :=
| oi_out il cs : one_by_one lib (inside_of p m) il (map (fun x => (fst x, [snd x])) cs) v -> map snd cs = h -> given il = h -> orderly_in lib p m h v
| oi_in il cs w0 i b k y : one_by_one lib (inside_of p m) il (map (fun x => (fst x, [snd x])) cs) w0 -> map snd cs ++ [b] = h -> given il = map snd cs ->
    inside_run lib w0 (ICall i [b] :: repeat (IGo i) k) = Some v -> nth_error (in_places v) i = Some y -> y <> PIdle ->
    (forall j, j <> i -> forall x, nth_error (in_places v) j = Some x -> x = PIdle) -> in_results v = in_results w0 -> orderly_in lib p m h v.
Lemma obo_idle lib w ls cs v : one_by_one lib w ls cs v -> (forall i x, nth_error (in_places w) i = Some x -> x = PIdle) ->
  forall i x, nth_error (in_places v) i = Some x -> x = PIdle.
Proof.
  induction 1 as [w|w j m q wa ls cs wb R I O IH]; intros H; [exact H|]. apply IH. intros i x E.
  destruct (Nat.eq_dec i j) as [->|N]; [congruence|].
  change (ICall j m :: repeat (IGo j) q) with ([ICall j m] ++ repeat (IGo j) q) in R. rewrite run_app in R.
  cbn [inside_run] in R. destruct (inside_step lib w (ICall j m)) as [u|] eqn:S; [|discriminate].
  rewrite (@others_run lib j q u wa R i N) in E. apply call_places in S as [_ ->]. rewrite places_put, put_nth in E.
  destruct (Nat.eqb_spec j i); [congruence|]. eapply H. exact E.
Qed.
Lemma still_there lib i w w' x : nth_error (in_places w) i = Some x -> inside_step lib w (IGo i) = Some w' ->
  exists y, nth_error (in_places w') i = Some y.
Proof.
  intros E S. assert (L : i < length (in_places w)) by (apply nth_error_Some; congruence).
  cbn [inside_step] in S. rewrite E in S. destruct x as [|u l|u r l|b [t m n|e] l]; [discriminate|..].
  - injection S as <-. eexists. apply place_at, L.
  - destruct (nth_error (in_store w) r) as [b|]; [|discriminate]. injection S as <-. destruct (@use_at lib i u r b l w L) as (y & Y & _). eauto.
  - injection S as <-. eexists. apply place_at. rewrite length_new. exact L.
  - injection S as <-. eexists. apply place_at. rewrite length_new. exact L.
Qed.
Lemma run_repeat_snoc lib w i k v v' : inside_run lib w (repeat (IGo i) k) = Some v -> inside_step lib v (IGo i) = Some v' ->
  inside_run lib w (repeat (IGo i) (S k)) = Some v'.
Proof.
  intros R S. change (repeat (IGo i) (Datatypes.S k)) with (IGo i :: repeat (IGo i) k). rewrite repeat_cons.
  rewrite run_app, R. cbn [inside_run]. rewrite S. reflexivity.
Qed.
Lemma go_orderly lib p m h v i v' : orderly_in lib p m h v -> inside_step lib v (IGo i) = Some v' -> orderly_in lib p m h v'.
Proof.
  intros O S.
  assert (B : exists y, nth_error (in_places v) i = Some y /\ y <> PIdle).
  { cbn [inside_step] in S. destruct (nth_error (in_places v) i) as [y|]; [|discriminate]. exists y. split; [reflexivity|]. intros ->. discriminate. }
  destruct B as (y & Ey & Ny). destruct O as [il cs O Hh Hg|il cs w0 j b k z O Hh Hg R Ej Nj Others Rs].
  - exfalso. apply Ny. eapply (obo_idle O); [intros a x; apply idle_start | exact Ey].
  - destruct (Nat.eq_dec i j) as [->|N]; [|exfalso; apply Ny; eapply Others; eassumption].
    assert (R' : inside_run lib w0 (ICall j [b] :: repeat (IGo j) (Datatypes.S k)) = Some v').
    { change (ICall j [b] :: repeat (IGo j) (Datatypes.S k)) with ([ICall j [b]] ++ repeat (IGo j) (Datatypes.S k)).
      change (ICall j [b] :: repeat (IGo j) k) with ([ICall j [b]] ++ repeat (IGo j) k) in R. rewrite run_app in *.
      destruct (inside_run lib w0 [ICall j [b]]) as [u|]; [|discriminate]. eapply run_repeat_snoc; eassumption. }
    assert (Others' : forall a, a <> j -> forall x, nth_error (in_places v') a = Some x -> x = PIdle).
    { intros a Na x E. rewrite (@others_step lib j v v' S a Na) in E. eapply Others; eassumption. }
    destruct (nth_error (in_places v') j) as [y'|] eqn:E'.
    + destruct y'; [|refine (@oi_in lib p m h v' il cs w0 j b (Datatypes.S k) _ O Hh Hg R' E' _ Others' _); [discriminate|];
          rewrite (@results_kept lib j v v' _ S E') by discriminate; exact Rs ..].
      eapply (@oi_out lib p m h v' (il ++ ICall j [b] :: repeat (IGo j) (Datatypes.S k)) (cs ++ [(j, b)])).
      * rewrite map_app. cbn [map fst snd]. eapply obo_snoc; eassumption.
      * rewrite map_app. exact Hh.
      * rewrite given_app, Hg. cbn [given flat_map app]. fold (given (repeat (IGo j) (Datatypes.S k))). rewrite given_go. exact Hh.
    + exfalso. destruct (@still_there lib j v v' z Ej S) as [q Q]. congruence.
Qed.

Lemma calls_alive w l i b : calls w l = Some (i, b) -> exists t, nth_error (k_threads w) i = Some t /\ alive_reader t = true /\ t <> KBusy CNone.
Proof.
  destruct l as [?|k|?|?|?|?|?]; try discriminate. cbn [calls]. destruct (nth_error (k_threads w) k) as [[]|] eqn:E; try discriminate.
  intro H. injection H as <- <-. eexists. split; [exact E|]. split; [reflexivity | discriminate].
Qed.
Lemma alone_prefix lib s a b : alone lib s (a ++ b) -> alone lib s a.
Proof. intros A pre post v E. apply (A pre (post ++ b)). rewrite E, app_assoc. reflexivity. Qed.
Lemma run_orderly_in lib p n m ls : forall s, station_run lib (station_of p n m) ls = Some s -> alone lib (station_of p n m) ls ->
  orderly_in lib p m (handed (new_port n) (port_labels ls)) (st_in s).
Proof.
  induction ls as [|x ls IH] using rev_ind; intros s R A.
  - injection R as <-. apply (@oi_out lib p m [] _ [] []); [constructor | reflexivity | reflexivity].
  - apply station_snoc in R as (u & R & S). specialize (IH u R ltac:(eapply alone_prefix; exact A)).
    pose proof (run_matched _ _ _ _ _ R) as M. destruct (run_parts _ _ _ R) as (Rp & _ & _). cbn [station_of st_port] in Rp.
    assert (Lu : live (st_port u) <= 1) by (eapply (A ls [x]); [reflexivity | exact R]).
    rewrite port_labels_app, (handed_app _ _ _ Rp). destruct u as [w v]. cbn [st_port st_in] in *.
    destruct x as [l|i]; cbn [station_step] in S.
    + destruct (may v l); [|discriminate]. destruct (port_step w l) as [w'|] eqn:P; [|discriminate].
      cbn [port_labels flat_map app handed]. rewrite P, handed_calls. cbn [handed]. rewrite app_nil_r.
      destruct (calls w l) as [[i b]|] eqn:C; [|injection S as <-; rewrite app_nil_r; exact IH].
      destruct (inside_step lib v (ICall i [b])) as [v'|] eqn:I; [|discriminate]. injection S as <-. cbn [st_in].
      destruct (call_places _ _ _ _ I) as [Ei Ev].
      destruct (calls_alive _ _ C) as (t & Et & At & Nt).
      destruct IH as [il cs O Hh Hg|il cs w0 j c k y O Hh Hg Rj Ej Nj Others Rs].
      * subst v'. eapply (@oi_in lib p m _ _ il cs v i b 0); [exact O | congruence | congruence | cbn [repeat inside_run]; rewrite I; reflexivity | ..].
        -- apply place_at. apply nth_error_Some. congruence.
        -- discriminate.
        -- intros j Nj y E. rewrite places_put, put_nth in E. destruct (Nat.eqb_spec i j); [congruence|].
           eapply (obo_idle O); [intros a z; apply idle_start | exact E].
        -- destruct v; reflexivity.
      * exfalso. pose proof (M j y Ej Nj) as B. cbn [st_port] in B.
        assert (E : i = j) by (eapply (@live_two w i j); try eassumption; [congruence | reflexivity]). subst j. congruence.
    + destruct (inside_step lib v (IGo i)) as [v'|] eqn:I; [|discriminate]. injection S as <-.
      cbn [port_labels flat_map app handed]. rewrite app_nil_r. cbn [st_in]. eapply go_orderly; eassumption.
Qed.

(** a beginning of the steps outside *)
Lemma port_prefix : forall ls pre post, port_labels ls = pre ++ post -> exists a b, ls = a ++ b /\ port_labels a = pre.
Proof.
  induction ls as [|x ls IH]; intros pre post E.
  - exists [], []. split; [reflexivity|]. destruct pre; [reflexivity | discriminate].
  - destruct x as [l|i].
    + destruct pre as [|y pre]; [exists [], (TPort l :: ls); auto|]. cbn [port_labels flat_map app] in E. injection E as <- E.
      destruct (IH pre post E) as (a & b & -> & <-). exists (TPort l :: a), b. auto.
    + destruct (IH pre post E) as (a & b & -> & <-). exists (TParse i :: a), b. auto.
Qed.
Lemma station_prefix lib s a b v : station_run lib s (a ++ b) = Some v -> exists u, station_run lib s a = Some u.
Proof. rewrite station_app. destruct (station_run lib s a) as [u|]; [eauto | discriminate]. Qed.

Lemma alone_order lib p n m ls s : station_run lib (station_of p n m) ls = Some s -> alone lib (station_of p n m) ls ->
  came (port_labels ls) = handed (new_port n) (port_labels ls) ++ held (st_port s) ++ k_input (st_port s).
Proof.
  intros R A. destruct (run_parts _ _ _ R) as (Rp & _ & _). cbn [station_of st_port] in Rp. apply run_plain; [exact Rp|].
  intros pre post v E Rv. destruct (port_prefix _ _ _ E) as (a & b & -> & <-).
  destruct (station_prefix _ _ _ _ R) as [u Ru]. destruct (run_parts _ _ _ Ru) as (Ra & _ & _). cbn [station_of st_port] in Ra.
  rewrite Ra in Rv. injection Rv as <-. destruct (run_live _ _ Ra) as [_ H].
  pose proof (A a b u eq_refl Ru). lia.
Qed.

Lemma station_in_order lib p n m ls s : byte_in p -> Forall is_byte (came (port_labels ls)) ->
  station_run lib (station_of p n m) ls = Some s -> alone lib (station_of p n m) ls ->
  came (port_labels ls) = handed (new_port n) (port_labels ls) ++ held (st_port s) ++ k_input (st_port s)
  /\ exists back now, handed (new_port n) (port_labels ls) = back ++ now /\ length now <= 1
     /\ results s = snd (fed lib p back)
     /\ (nobody_inside (st_in s) -> now = [] /\ parser_now (st_in s) = fst (fed lib p back)).
Proof.
  intros B F R A. pose proof (@alone_order lib p n m ls s R A) as Or. split; [exact Or|].
  rewrite Or in F. apply Forall_app in F as [F _].
  destruct (@run_orderly_in lib p n m ls s R A) as [il cs O Hh Hg|il cs w0 i b k y O Hh Hg Ri Ei Ni Others Rs].
  - exists (handed (new_port n) (port_labels ls)), []. rewrite app_nil_r. split; [reflexivity|]. split; [cbn; lia|].
    assert (G : Forall is_byte (given il)) by (rewrite Hg; exact F).
    destruct (@inside_turns lib p m _ _ _ B G O) as (T1 & T2 & _). destruct (in_turn_fed lib cs p) as [U1 U2]. rewrite <- Hh.
    split; [unfold results; rewrite T2; exact U2|]. intros _. split; [reflexivity|]. congruence.
  - exists (map snd cs), [b]. split; [symmetry; exact Hh|]. split; [cbn; lia|].
    assert (G : Forall is_byte (given il)) by (rewrite Hg; rewrite <- Hh in F; apply Forall_app in F; tauto).
    destruct (@inside_turns lib p m _ _ _ B G O) as (T1 & T2 & _). destruct (in_turn_fed lib cs p) as [U1 U2].
    split.
    + unfold results. rewrite <- U2, <- T2, Rs. reflexivity.
    + intros NI. exfalso. apply Ni. unfold nobody_inside in NI. rewrite Forall_forall in NI. apply NI. eapply nth_error_In. exact Ei.
Qed.
