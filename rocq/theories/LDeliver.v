(** Lemmas for C104. *)
From Coq Require Import Lia Arith.
From Verif Require Import SDeliver LStation LStation2 LStation3 LStation4 LStation7 LStation8 LInside5 LReaders4.
Set Implicit Arguments.

Lemma delivery_app lib a b : forall d, delivery_run lib d (a ++ b) =
  match delivery_run lib d a with Some v => delivery_run lib v b | None => None end.
Proof. induction a as [|x a IH]; intro d; [reflexivity|]. cbn [app delivery_run]. destruct (delivery_step lib d x); [apply IH | reflexivity]. Qed.
Lemma delivery_snoc lib d ls y v : delivery_run lib d (ls ++ [y]) = Some v ->
  exists u, delivery_run lib d ls = Some u /\ delivery_step lib u y = Some v.
Proof.
  rewrite delivery_app. destruct (delivery_run lib d ls) as [u|]; [|discriminate]. cbn [delivery_run].
  intro H. exists u. split; [reflexivity|]. destruct (delivery_step lib u y); exact H.
Qed.
Lemma labels_app a b : station_labels (a ++ b) = station_labels a ++ station_labels b.
Proof. apply flat_map_app. Qed.
Lemma delivery_station lib d y v : delivery_step lib d y = Some v -> station_run lib (d_st d) (station_labels [y]) = Some (d_st v).
Proof.
  destruct d as [s todo dn lost busy]. destruct y as [x|i]; cbn [delivery_step station_labels flat_map app station_run d_st].
  - destruct (fits _ x); [|discriminate]. destruct (station_step lib s x) as [s'|]; [|discriminate].
    intro H. destruct x as [[]|]; injection H as <-; reflexivity.
  - destruct (nth_error (k_threads (st_port s)) i) as [[| | | |[]|]|]; try discriminate. destruct (nth_error (in_places (st_in s)) i) as [[]|]; try discriminate.
    destruct (take_first i todo) as [[x r]|]; [|discriminate]. intro H. injection H as <-. reflexivity.
Qed.
Lemma delivery_stations lib ls : forall d v, delivery_run lib d ls = Some v -> station_run lib (d_st d) (station_labels ls) = Some (d_st v).
Proof.
  induction ls as [|y ls IH]; intros d v H; cbn [delivery_run] in H; [injection H as <-; reflexivity|].
  destruct (delivery_step lib d y) as [u|] eqn:E; [|discriminate]. apply delivery_station in E. apply IH in H.
  change (y :: ls) with ([y] ++ ls). rewrite labels_app, station_app, E. exact H.
Qed.

(** * Lists *)
Lemma mine_app i a b : mine i (a ++ b) = mine i a ++ mine i b. Proof. apply filter_app. Qed.
Lemma mine_cons i x l : mine i (x :: l) = if Nat.eqb (fst x) i then x :: mine i l else mine i l. Proof. reflexivity. Qed.
Lemma not_mine_cons i x l : not_mine i (x :: l) = if Nat.eqb (fst x) i then not_mine i l else x :: not_mine i l.
Proof. unfold not_mine. cbn [filter]. destruct (Nat.eqb (fst x) i); reflexivity. Qed.
Lemma mine_not i j l : mine i (not_mine j l) = if Nat.eqb i j then [] else mine i l.
Proof.
  induction l as [|x l IH]; [destruct (Nat.eqb i j); reflexivity|]. rewrite not_mine_cons, mine_cons.
  destruct (Nat.eqb_spec (fst x) j), (Nat.eqb_spec (fst x) i), (Nat.eqb_spec i j); rewrite ?mine_cons; try congruence;
  destruct (Nat.eqb_spec (fst x) i); congruence.
Qed.
Lemma mine_mine i j l : mine i (mine j l) = if Nat.eqb i j then mine i l else [].
Proof.
  induction l as [|x l IH]; [destruct (Nat.eqb i j); reflexivity|]. rewrite !mine_cons.
  destruct (Nat.eqb_spec (fst x) j), (Nat.eqb_spec (fst x) i), (Nat.eqb_spec i j); rewrite ?mine_cons; try congruence;
  destruct (Nat.eqb_spec (fst x) i); congruence.
Qed.
Lemma take_mine i : forall l y r, take_first i l = Some (y, r) ->
  fst y = i /\ mine i l = y :: mine i r /\ forall j, j <> i -> mine j l = mine j r.
Proof.
  induction l as [|x l IH]; intros y r H; [discriminate|]. cbn [take_first] in H.
  destruct (Nat.eqb_spec (fst x) i) as [E|E].
  - injection H as <- <-. split; [exact E|]. cbn [mine filter]. split; [destruct (Nat.eqb_spec (fst x) i); [reflexivity | congruence]|].
    intros j N. destruct (Nat.eqb_spec (fst x) j); [congruence | reflexivity].
  - destruct (take_first i l) as [[z r']|]; [|discriminate]. injection H as <- <-. destruct (IH z r' eq_refl) as (A & B & C).
    split; [exact A|]. cbn [mine filter]. unfold mine in *. destruct (Nat.eqb_spec (fst x) i); [congruence|]. split; [exact B|].
    intros j N. rewrite (C j N). reflexivity.
Qed.
Lemma take_perm i : forall l y r, take_first i l = Some (y, r) -> Permutation l (y :: r).
Proof.
  induction l as [|x l IH]; intros y r H; [discriminate|]. cbn [take_first] in H.
  destruct (Nat.eqb (fst x) i); [injection H as <- <-; reflexivity|].
  destruct (take_first i l) as [[z r']|]; [|discriminate]. injection H as <- <-. rewrite (IH z r' eq_refl). apply perm_swap.
Qed.
Lemma parts_perm i l : Permutation l (not_mine i l ++ mine i l).
Proof.
  induction l as [|x l IH]; [constructor|]. cbn [mine not_mine filter]. unfold mine, not_mine in IH.
  destruct (Nat.eqb (fst x) i); cbn [negb app]; [apply Permutation_cons_app; exact IH | constructor; exact IH].
Qed.
Lemma items_app a b : items (a ++ b) = items a ++ items b. Proof. apply flat_map_app. Qed.
Lemma items_mine i j r : mine j (items [(i, r)]) = if Nat.eqb i j then items [(i, r)] else [].
Proof.
  unfold items. cbn [flat_map snd fst]. rewrite app_nil_r. destruct r as [r|e]; [|destruct (Nat.eqb i j); reflexivity].
  unfold mine. induction (pr_msgs r) as [|x l IH]; [destruct (Nat.eqb i j); reflexivity|]. cbn [map filter fst]. rewrite IH.
  destruct (Nat.eqb i j); reflexivity.
Qed.
Lemma skipn_snoc A (a b : list A) : skipn (length a) (a ++ b) = b.
Proof. induction a; [reflexivity | assumption]. Qed.

(** * Steps *)
Lemma busy_or_done w l v i c : port_step w l = Some v -> nth_error (k_threads w) i = Some (KBusy c) ->
  (exists c', nth_error (k_threads v) i = Some (KBusy c')) \/ (exists ok, l = KDone i ok).
Proof.
  intros H B.
  assert (D : acting l <> Some i \/ acting l = Some i) by (destruct (acting l) as [k|]; [destruct (Nat.eq_dec k i) as [->|N]; [right; reflexivity | left; congruence] | left; discriminate]).
  destruct D as [D|D]; [left; exists c; eapply busy_stays; eassumption|].
  assert (C : forall u d, nth_error (k_threads u) i = Some (KBusy c) -> nth_error (k_threads (set_call (Reader i) d u)) i = Some (KBusy d)).
  { intros u d E. destruct u as [a0 a1 a2 a3 a4 a5 a6]. cbn [set_call k_threads] in *. rewrite nth_set, Nat.eqb_refl, E. reflexivity. }
  assert (T : forall u, k_threads u = k_threads w -> nth_error (k_threads u) i = Some (KBusy c)) by (intros u E; rewrite E; exact B).
  destruct l as [b|k|k ok|k|x|x|x]; cbn [acting] in D; try discriminate; cbn [port_step] in H.
  - injection D as ->. rewrite B in H. discriminate.
  - injection D as ->. right. exists ok. reflexivity.
  - injection D as ->. rewrite B in H. discriminate.
  - left. destruct x as [|k]; [discriminate|]. injection D as ->. destruct (the_call w (Reader i)) as [[]|]; try discriminate. injection H as <-. eexists. apply C, T. destruct w; reflexivity.
  - left. destruct x as [|k]; [discriminate|]. injection D as ->. destruct (the_call w (Reader i)) as [[]|]; try discriminate. injection H as <-. eexists. apply C, T. destruct w; reflexivity.
  - left. destruct x as [|k]; [discriminate|]. injection D as ->. destruct (the_call w (Reader i)) as [[| | |j| |]|]; try discriminate.
    + injection H as <-. eexists. apply C, T. destruct w; reflexivity.
    + injection H as <-. eexists. apply C, T. reflexivity.
    + destruct (nth_error (k_threads w) j) as [[| | | | |]|]; try (destruct (Nat.eqb i j); [|discriminate]); injection H as <-; eexists; apply C, T; reflexivity.
    + injection H as <-. eexists. apply C. destruct w as [a0 a1 a2 a3 a4 a5 a6]. cbn [create k_threads] in *. rewrite nth_error_app1; [exact B | apply nth_error_Some; congruence].
    + injection H as <-. eexists. apply C. destruct (nth_error (k_threads w) (k_last w)) as [[| | | | |]|] eqn:L; try exact B.
      rewrite nth_set_reader. destruct (Nat.eqb_spec (k_last w) i) as [E|E]; [rewrite E in L; congruence | exact B].
Qed.
(** a step outside [parse] adds no results, and changes no place but that of a
    reader that was about to call it *)
Lemma port_results lib w v l w' v' : station_step lib (mkStation w v) (TPort l) = Some (mkStation w' v') ->
  port_step w l = Some w' /\ in_results v' = in_results v
  /\ forall i c, nth_error (k_threads w) i = Some (KBusy c) -> nth_error (in_places v') i = nth_error (in_places v) i.
Proof.
  cbn [station_step]. destruct (may v l); [|discriminate]. destruct (port_step w l) as [u|]; [|discriminate].
  destruct (calls w l) as [[k b]|] eqn:Cl.
  - destruct (inside_step lib v (ICall k [b])) as [v1|] eqn:I; [|discriminate]. intro H. injection H as <- <-.
    apply call_places in I as [_ ->]. split; [reflexivity|]. split; [destruct v; reflexivity|]. intros i c B.
    rewrite places_put. destruct (Nat.eq_dec k i) as [->|N].
    + destruct l; try discriminate. cbn [calls] in Cl. destruct (nth_error (k_threads w) i0) as [[]|] eqn:E; try discriminate. injection Cl as -> _. congruence.
    + clear - N. revert i k N. induction (in_places v) as [|x l IH]; intros i k N; [destruct k; reflexivity|]. destruct i, k; cbn; try congruence. apply IH. congruence.
  - intro H. injection H as <- <-. auto.
Qed.

Record inv (d : Delivery) : Prop := mkInv
  { iv_split : forall i, mine i (returned_to d) = mine i (d_done d) ++ mine i (d_todo d) ++ mine i (d_lost d);
    iv_perm : Permutation (returned_to d) (d_done d ++ d_todo d ++ d_lost d);
    iv_todo : forall i, mine i (d_todo d) <> [] ->
      (exists c, nth_error (k_threads (st_port (d_st d))) i = Some (KBusy c)) /\ nth_error (in_places (st_in (d_st d))) i = Some PIdle;
    iv_lost : forall i, mine i (d_lost d) <> [] -> nth_error (k_threads (st_port (d_st d))) i = Some KEnded }.

Lemma inv_next lib d i v : inv d -> delivery_step lib d (DNext i) = Some v -> inv v.
Proof.
  destruct d as [s todo dn lost busy]. intros [Sp Pe To Lo] H. cbn [delivery_step] in H. unfold returned_to in *. cbn [d_st d_todo d_done d_lost] in *.
  destruct (nth_error (k_threads (st_port s)) i) as [[| | | |[]|]|]; try discriminate. destruct (nth_error (in_places (st_in s)) i) as [[]|]; try discriminate.
  destruct (take_first i todo) as [[x r]|] eqn:T; [|discriminate]. injection H as <-. destruct (take_mine _ _ T) as (F & M & O).
  split; unfold returned_to; cbn [d_st d_todo d_done d_lost].
  - intro j. rewrite Sp, mine_app, mine_cons. destruct (Nat.eqb_spec (fst x) j) as [E|E].
    + assert (j = i) by congruence. subst j. subst. rewrite M. cbn [mine filter app]. rewrite <- app_assoc. reflexivity.
    + rewrite (O j) by congruence. cbn [mine filter]. rewrite app_nil_r. reflexivity.
  - rewrite Pe. rewrite <- app_assoc. apply Permutation_app_head. cbn [app]. change (x :: r ++ lost) with ((x :: r) ++ lost). apply Permutation_app_tail. eapply take_perm. exact T.
  - intros j N. apply To. destruct (Nat.eq_dec j i) as [->|D]; [rewrite M; discriminate | rewrite (O j D); exact N].
  - exact Lo.
Qed.
Lemma inv_parse lib d i v : matched (d_st d) -> inv d -> delivery_step lib d (DStation (TParse i)) = Some v -> inv v.
Proof.
  destruct d as [[w u] todo dn lost busy]. intros Ma [Sp Pe To Lo] H. cbn [delivery_step fits station_step] in H. unfold returned_to in *. cbn [d_st d_todo d_done d_lost st_in st_port] in *.
  destruct (inside_step lib u (IGo i)) as [u'|] eqn:E; [|discriminate]. injection H as <-.
  assert (Pi : exists x, nth_error (in_places u) i = Some x /\ x <> PIdle).
  { cbn [inside_step] in E. destruct (nth_error (in_places u) i) as [x|]; [|discriminate]. exists x. split; [reflexivity|]. intros ->. discriminate. }
  destruct Pi as (x & Px & Nx). pose proof (Ma i x Px Nx) as Bi. cbn [st_port] in Bi.
  assert (Ti : mine i todo = []) by (destruct (mine i todo) as [|y q] eqn:Q; [reflexivity|]; destruct (To i ltac:(rewrite Q; discriminate)) as [_ C]; congruence).
  assert (Li : mine i lost = []) by (destruct (mine i lost) as [|y q] eqn:Q; [reflexivity|]; pose proof (Lo i ltac:(rewrite Q; discriminate)); congruence).
  pose proof (@others_step _ _ _ _ E) as Ot.
  cbn [st_in]. destruct (@result_or _ _ _ _ E) as [R|(r & R & P')].
  - rewrite R. rewrite skipn_all. change (items []) with (@nil Item). rewrite app_nil_r.
    split; unfold returned_to; cbn [d_st d_todo d_done d_lost st_in st_port]; rewrite ?R; try assumption.
    intros j N. destruct (To j N) as [A B]. split; [exact A|]. rewrite Ot; [exact B|]. intros ->. congruence.
  - rewrite R, skipn_snoc. split; unfold returned_to; cbn [d_st d_todo d_done d_lost st_in st_port]; rewrite ?R.
    + intro j. rewrite items_app, !mine_app, Sp, items_mine. destruct (Nat.eqb_spec i j) as [<-|D]; [|rewrite !app_nil_r; reflexivity].
      rewrite Ti, Li, !app_nil_r. reflexivity.
    + rewrite items_app, Pe. rewrite <- !app_assoc. do 2 apply Permutation_app_head. apply Permutation_app_comm.
    + intros j N. rewrite mine_app in N. rewrite items_mine in N. destruct (Nat.eqb_spec i j) as [Ej|D]; [subst j|].
      * split; [eauto|]. rewrite P'. clear - Px. revert i Px. induction (in_places u) as [|y l IH]; intros [|i]; cbn; try discriminate; auto.
      * rewrite app_nil_r in N. rewrite Ot by congruence. apply To. exact N.
    + exact Lo.
Qed.
Lemma inv_port lib d l v : inv d -> delivery_step lib d (DStation (TPort l)) = Some v -> inv v.
Proof.
  destruct d as [[w u] todo dn lost busy]. intros [Sp Pe To Lo] H. cbn [delivery_step] in H. unfold returned_to in *. cbn [d_st d_todo d_done d_lost st_in st_port] in *.
  destruct (fits _ _) eqn:Fi; [|discriminate]. destruct (station_step lib _ _) as [[w' u']|] eqn:E; [|discriminate].
  destruct (port_results _ _ _ _ E) as (P & R & Pl).
  assert (Dn : (exists i ok, l = KDone i ok) \/ (forall i ok, l <> KDone i ok)) by (destruct l; try (right; intros; discriminate); left; eauto).
  destruct Dn as [(i & ok & ->)|Dn].
  - injection H as <-. split; unfold returned_to; cbn [d_st d_todo d_done d_lost st_in st_port]; rewrite ?R.
    + intro j. rewrite Sp, mine_app, mine_not, mine_mine. destruct (Nat.eqb_spec j i) as [->|D]; [|rewrite app_nil_r; reflexivity]. cbn [app].
      destruct (mine i lost) as [|y q] eqn:Q; [rewrite app_nil_r; reflexivity|].
      exfalso. cbn [port_step] in P. rewrite (Lo i) in P by (rewrite Q; discriminate). discriminate.
    + rewrite Pe. apply Permutation_app_head. rewrite (parts_perm i todo) at 1. rewrite <- app_assoc. apply Permutation_app_head. apply Permutation_app_comm.
    + intros j N. rewrite mine_not in N. destruct (Nat.eqb_spec j i) as [Ej|D]; [contradiction|]. destruct (To j N) as [[c B] I].
      split; [|rewrite (Pl j c B); exact I]. destruct (@busy_or_done _ _ _ _ _ P B) as [C|[ok' C]]; [exact C | congruence].
    + intros j N. rewrite mine_app, mine_mine in N. destruct (Nat.eqb_spec j i) as [Ej|D]; [subst j|].
      * destruct ok.
        { cbn [fits d_todo] in Fi. destruct (mine i todo); [|discriminate]. rewrite app_nil_r in N. eapply ended_stays; [exact P | apply Lo; exact N]. }
        cbn [port_step] in P. destruct (nth_error (k_threads w) i) as [[| | | |[]|]|] eqn:B; try discriminate. injection P as <-. rewrite nth_set_reader, Nat.eqb_refl, B. reflexivity.
      * rewrite app_nil_r in N. eapply ended_stays; [exact P | apply Lo; exact N].
  - assert (V : v = mkDelivery (mkStation w' u') todo dn lost busy) by (destruct l; try (injection H as <-; reflexivity); exfalso; eapply Dn; reflexivity).
    subst v. split; unfold returned_to; cbn [d_st d_todo d_done d_lost st_in st_port]; rewrite ?R; try assumption.
    + intros j N. destruct (To j N) as [[c B] I]. split; [|rewrite (Pl j c B); exact I].
      destruct (@busy_or_done _ _ _ _ _ P B) as [C|[ok C]]; [exact C | exfalso; eapply Dn; exact C].
    + intros j N. eapply ended_stays; [exact P | apply Lo; exact N].
Qed.
Lemma inv_run lib p n m ls : forall d, delivery_run lib (delivery_of p n m) ls = Some d -> inv d.
Proof.
  induction ls as [|y ls IH] using rev_ind; intros d H.
  - injection H as <-. split; [intro; reflexivity | exact (Permutation_refl []) | intros i N; exfalso; apply N; reflexivity | intros i N; exfalso; apply N; reflexivity].
  - apply delivery_snoc in H as (u & H & S). specialize (IH u H). destruct y as [[l|i]|i].
    + eapply inv_port; eassumption.
    + eapply inv_parse; [|exact IH | exact S]. apply delivery_stations in H. eapply run_matched. exact H.
    + eapply inv_next; eassumption.
Qed.
