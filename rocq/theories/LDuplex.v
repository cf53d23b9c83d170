(** Two ends that send and receive at the same time. *)
From Coq Require Import ZifyBool ZifyNat.
From Verif Require Export SDuplex LTraffic LSend.
Ltac Zify.zify_post_hook ::= Z.div_mod_to_equations.

(** counters of the frames under way: successive, the next one is [u] *)
Fixpoint chain (d : Z) (cs : list Z) (u : Z) : Prop :=
  match cs with
  | [] => counter_after d = u
  | c :: r => c = counter_after d /\ chain c r u
  end.
Lemma last_from cs : forall c d : Z, last (c :: cs) d = last cs c.
Proof.
  induction cs as [|e cs IH]; intros c d; [reflexivity|].
  change (last (c :: e :: cs) d) with (last (e :: cs) d). rewrite (IH e d), (IH e c). reflexivity.
Qed.
Lemma chain_app a : forall d b u, chain d (a ++ b) u -> exists v, chain d a v /\ chain (last a d) b u.
Proof.
  induction a as [|c a IH]; intros d b u H.
  - exists (counter_after d). split; [reflexivity | exact H].
  - destruct H as [-> H]. destruct (IH _ _ _ H) as (v & H1 & H2). exists v. split; [split; [reflexivity | exact H1]|].
    rewrite last_from. exact H2.
Qed.
Lemma chain_snoc cs : forall d u, chain d cs u -> chain d (cs ++ [u]) (counter_after u).
Proof.
  induction cs as [|c cs IH]; intros d u H; cbn [app chain] in *; [split; [symmetry; exact H | reflexivity]|].
  destruct H as [-> H]. split; [reflexivity | apply IH; exact H].
Qed.
Lemma bump_next p c : is_byte (sp_down p) -> c = counter_after (sp_down p) ->
  bump p c = mkSP (sp_buf p) (sp_skip p) (sp_up p) c (sp_errs p).
Proof.
  intros B ->. unfold bump, counter_after. unfold is_byte in B.
  destruct (255 <? sp_down p + 1) eqn:L.
  - replace ((sp_down p + 1) mod 256) with 0 by lia. reflexivity.
  - replace ((sp_down p + 1) mod 256) with (sp_down p + 1) by lia. rewrite Z.eqb_refl. reflexivity.
Qed.
Lemma chain_counters cs : forall p u, is_byte (sp_down p) -> chain (sp_down p) cs u ->
  with_counters p cs = mkSP (sp_buf p) (sp_skip p) (sp_up p) (last cs (sp_down p)) (sp_errs p).
Proof.
  induction cs as [|c cs IH]; intros p u B H; [destruct p; reflexivity|].
  destruct H as [E H]. unfold with_counters. cbn [fold_left]. rewrite (bump_next p c B E). fold (with_counters (mkSP (sp_buf p) (sp_skip p) (sp_up p) c (sp_errs p)) cs). rewrite (IH _ u).
  - cbn [sp_buf sp_skip sp_up sp_down sp_errs]. rewrite last_from. reflexivity.
  - cbn [sp_down]. rewrite E. unfold counter_after, is_byte. lia.
  - exact H.
Qed.
Lemma last_byte cs : forall d u, is_byte d -> chain d cs u -> is_byte (last cs d).
Proof.
  induction cs as [|c cs IH]; intros d u B H; [exact B|]. destruct H as [E H].
  rewrite last_from.
  apply (IH c u); [rewrite E; unfold counter_after, is_byte; lia | exact H].
Qed.

(** one direction: frames [l] are under way to [b] from a sender whose next counter is
    [u]; at first that counter was [u0] and the receiver's counters were [d0], [e0] *)
Definition way (u0 d0 e0 u : Z) (b : SParser) (ch : list Z) (got : list (Z * Msg)) (l : list Sent) : Prop :=
  Forall (sent_ok (sp_skip b)) l /\ sp_buf b ++ ch = wire l /\ (ch = [] -> l = [])
  /\ is_byte u /\ is_byte (sp_down b)
  /\ exists v, is_byte v /\ chain v (map s_counter l) u
  /\ match got with
     | [] => counter_after v = u0 /\ sp_down b = d0 /\ sp_errs b = e0
     | _ => sp_down b = v /\ sp_errs b = e0 + (if counter_after d0 =? u0 then 0 else 1)
     end.

Lemma way_send u0 d0 e0 u b ch got l ser m : way u0 d0 e0 u b ch got l -> transmits (sp_skip b) ser m -> forall a, sp_up a = u ->
  exists a' f x, build_serial_frame a ser = (a', Ok f) /\ way u0 d0 e0 (counter_after u) b (ch ++ f) got (l ++ [x])
    /\ delivered [x] = [(1, m)] /\ sp_up a' = counter_after u
    /\ sp_buf a' = sp_buf a /\ sp_skip a' = sp_skip a /\ sp_down a' = sp_down a /\ sp_errs a' = sp_errs a.
Proof.
  intros (F & E & Z & Bu & Bd & v & Bv & C & T) (bs & -> & P & K) a U.
  pose proof (build_spec a (Ok bs) ltac:(rewrite U; exact Bu)) as S. cbv iota in S.
  replace (zlen bs <=? 255) with true in S by (destruct P; lia).
  destruct S as (a' & Eb & Ua & Ba & Sa & Da & Ea). exists a', (frame u 1 bs), (mkSent u 1 bs m).
  rewrite U in *. refine (conj Eb (conj _ (conj eq_refl (conj Ua (conj Ba (conj Sa (conj Da Ea))))))).
  unfold way. refine (conj _ (conj _ (conj _ (conj _ (conj Bd _))))).
  - apply Forall_app. split; [exact F|]. constructor; [|constructor].
    refine (conj Bu (conj _ (conj P K))). unfold is_byte. cbn. lia.
  - rewrite app_assoc, E. unfold wire. rewrite flat_map_app. cbn [flat_map]. rewrite app_nil_r. reflexivity.
  - intros N. apply app_eq_nil in N. destruct N as [_ N]. unfold frame in N. destruct (calculate_crc bs). discriminate N.
  - unfold counter_after, is_byte. lia.
  - exists v. refine (conj Bv (conj _ T)). rewrite map_app. apply chain_snoc. exact C.
Qed.
Lemma way_read lib u0 d0 e0 u b ch got l n : way u0 d0 e0 u b ch got l ->
  exists l1 l2 b' pd lf, l = l1 ++ l2 /\ sparse lib b (firstn n ch) = (b', Ok (mkPR (delivered l1) pd lf []))
    /\ way u0 d0 e0 u b' (skipn n ch) (got ++ delivered l1) l2 /\ sp_up b' = sp_up b /\ sp_skip b' = sp_skip b.
Proof.
  intros (F & E & Z & Bu & Bd & v & Bv & C & T).
  rewrite <- (firstn_skipn n ch), app_assoc in E.
  destruct (runs_prefix lib (sp_skip b) l F _ _ E) as (l1 & l2 & pd & fin & -> & Ef & R & Zf).
  assert (Fall : Forall is_byte ((sp_buf b ++ firstn n ch) ++ skipn n ch)) by (rewrite E; eapply wire_bytes; exact F).
  apply Forall_app in Fall. destruct Fall as [Fbc _]. apply Forall_app in Fbc. destruct Fbc as [Fb Fc].
  pose proof (sparse_runs _ _ _ _ _ _ _ _ _ Fb Fc R) as S. cbv iota in S.
  exists l1, l2. eexists _, pd, _. refine (conj eq_refl (conj S _)).
  apply Forall_app in F. destruct F as [F1 F2].
  cbn [set_buf sp_up sp_skip]. rewrite counters_up, counters_skip.
  refine (conj _ (conj eq_refl eq_refl)). unfold way.
  cbn [set_buf sp_skip sp_buf sp_down sp_errs]. rewrite counters_skip.
  refine (conj F2 (conj Ef (conj (fun N => proj1 (Zf N)) (conj Bu _)))).
  rewrite map_app in C. destruct (chain_app _ _ _ _ C) as (v' & C1 & C2).
  assert (Bl : is_byte (last (map s_counter l1) v)) by exact (last_byte _ _ _ Bv C1).
  destruct l1 as [|x l1].
  { cbn [map delivered with_counters fold_left last] in *. rewrite app_nil_r. split; [exact Bd|]. exists v. auto. }
  assert (G : sp_down (with_counters b (map s_counter (x :: l1))) = last (map s_counter (x :: l1)) v
    /\ sp_errs (with_counters b (map s_counter (x :: l1))) = e0 + (if counter_after d0 =? u0 then 0 else 1)).
  { destruct got as [|g got].
    - destruct T as (Tv & Td & Te). cbn [map] in *. destruct C1 as [Ec C1]. rewrite Tv in Ec.
      unfold with_counters. cbn [fold_left]. fold (with_counters (bump b (s_counter x)) (map s_counter l1)).
      assert (Hb : sp_down (bump b (s_counter x)) = s_counter x
        /\ sp_errs (bump b (s_counter x)) = e0 + (if counter_after d0 =? u0 then 0 else 1)).
      { rewrite Ec, <- Td, <- Te. unfold bump, counter_after. unfold is_byte in Bd. cbv zeta.
        replace (if 255 <? sp_down b + 1 then 0 else sp_down b + 1) with ((sp_down b + 1) mod 256)
          by (destruct (255 <? sp_down b + 1) eqn:L; lia).
        rewrite (Z.eqb_sym u0). destruct (_ =? u0) eqn:Q; cbn [negb sp_errs sp_down]; split; lia. }
      destruct Hb as [Hd He]. rewrite last_from.
      rewrite (chain_counters (map s_counter l1) (bump b (s_counter x)) v').
      + cbn [sp_down sp_errs]. rewrite Hd. split; [reflexivity | exact He].
      + rewrite Hd, Ec, <- Tv. unfold counter_after, is_byte. lia.
      + rewrite Hd. exact C1.
    - destruct T as (Tv & Te). rewrite <- Tv in C1 |- *. rewrite (chain_counters _ _ _ Bd C1). cbn [sp_down sp_errs].
      split; [reflexivity | exact Te]. }
  destruct G as [Gd Ge]. rewrite Gd. split; [exact Bl|]. exists (last (map s_counter (x :: l1)) v).
  refine (conj Bl (conj C2 _)). cbn [delivered map]. destruct got; cbn [app]; (split; [reflexivity | exact Ge]).
Qed.
(** sending and receiving at the same end do not disturb each other *)
Lemma way_other u0 d0 e0 u b b' ch got l : way u0 d0 e0 u b ch got l ->
  sp_buf b' = sp_buf b -> sp_skip b' = sp_skip b -> sp_down b' = sp_down b -> sp_errs b' = sp_errs b -> way u0 d0 e0 u b' ch got l.
Proof. unfold way. intros W -> -> -> ->. exact W. Qed.
Lemma unsendable_keeps p ser : is_byte (sp_up p) -> unsendable ser -> exists e, build_serial_frame p ser = (p, Err e).
Proof.
  intros B U. pose proof (build_spec p ser B) as S. destruct U as [(e & ->) | (a & -> & L)]; [exists e; exact S|].
  replace (zlen a <=? 255) with false in S by lia. exists ValueError. exact S.
Qed.

Lemma delivered_app l1 l2 : delivered (l1 ++ l2) = delivered l1 ++ delivered l2.
Proof. apply map_app. Qed.
Lemma talk_runs lib ska skb ua da ea ub db eb l ma mb : talk ska skb l ma mb -> forall w la lb,
  sp_skip (p_a w) = ska -> sp_skip (p_b w) = skb ->
  way ua db eb (sp_up (p_a w)) (p_b w) (p_ab w) (p_got_b w) la -> way ub da ea (sp_up (p_b w)) (p_a w) (p_ba w) (p_got_a w) lb ->
  exists w' la' lb', moves lib w l = Some w' /\ p_errors w' = p_errors w
    /\ way ua db eb (sp_up (p_a w')) (p_b w') (p_ab w') (p_got_b w') la'
    /\ way ub da ea (sp_up (p_b w')) (p_a w') (p_ba w') (p_got_a w') lb'
    /\ p_got_b w ++ delivered la ++ as_data ma = p_got_b w' ++ delivered la'
    /\ p_got_a w ++ delivered lb ++ as_data mb = p_got_a w' ++ delivered lb'
    /\ sp_skip (p_a w') = ska /\ sp_skip (p_b w') = skb.
Proof.
  induction 1 as [|ser m r ma mb T H IH|ser m r ma mb T H IH|ser r ma mb U H IH|ser r ma mb U H IH|n r ma mb H IH|n r ma mb H IH];
    intros w la lb Sa Sb Wa Wb; cbn [moves move].
  - exists w, la, lb. cbn [as_data map]. rewrite !app_nil_r.
    exact (conj eq_refl (conj eq_refl (conj Wa (conj Wb (conj eq_refl (conj eq_refl (conj Sa Sb))))))).
  - rewrite <- Sb in T. destruct (way_send _ _ _ _ _ _ _ _ ser m Wa T (p_a w) eq_refl) as (a' & f & x & -> & W' & Dx & U & K1 & K2 & K3 & K4).
    destruct (IH (mkPair a' (p_b w) (p_ab w ++ f) (p_ba w) (p_got_a w) (p_got_b w) (p_errors w)) (la ++ [x]) lb)
      as (w' & la' & lb' & M & Er & Wa' & Wb' & Gb & Ga & Ea & Eb);
      cbn [p_a p_b p_ab p_ba p_got_a p_got_b p_errors] in *.
    + rewrite K2. exact Sa.
    + exact Sb.
    + rewrite U. exact W'.
    + apply (way_other _ _ _ _ (p_a w)); assumption.
    + exists w', la', lb'. refine (conj M (conj Er (conj Wa' (conj Wb' (conj _ (conj Ga (conj Ea Eb))))))).
      rewrite <- Gb, delivered_app, Dx. cbn [as_data map]. rewrite <- app_assoc. reflexivity.
  - rewrite <- Sa in T. destruct (way_send _ _ _ _ _ _ _ _ ser m Wb T (p_b w) eq_refl) as (b' & f & x & -> & W' & Dx & U & K1 & K2 & K3 & K4).
    destruct (IH (mkPair (p_a w) b' (p_ab w) (p_ba w ++ f) (p_got_a w) (p_got_b w) (p_errors w)) la (lb ++ [x]))
      as (w' & la' & lb' & M & Er & Wa' & Wb' & Gb & Ga & Ea & Eb);
      cbn [p_a p_b p_ab p_ba p_got_a p_got_b p_errors] in *.
    + exact Sa.
    + rewrite K2. exact Sb.
    + apply (way_other _ _ _ _ (p_b w)); assumption.
    + rewrite U. exact W'.
    + exists w', la', lb'. refine (conj M (conj Er (conj Wa' (conj Wb' (conj Gb (conj _ (conj Ea Eb))))))).
      rewrite <- Ga, delivered_app, Dx. cbn [as_data map]. rewrite <- app_assoc. reflexivity.
  - destruct (unsendable_keeps (p_a w) ser ltac:(apply Wa) U) as (e & ->). rewrite app_nil_r.
    destruct w as [a b ab ba ga gb er]. cbn [p_a p_b p_ab p_ba p_got_a p_got_b p_errors] in *. apply IH; assumption.
  - destruct (unsendable_keeps (p_b w) ser ltac:(apply Wb) U) as (e & ->). rewrite app_nil_r.
    destruct w as [a b ab ba ga gb er]. cbn [p_a p_b p_ab p_ba p_got_a p_got_b p_errors] in *. apply IH; assumption.
  - destruct (way_read lib _ _ _ _ _ _ _ _ n Wb) as (l1 & l2 & a' & pd & lf & -> & -> & W' & K2 & K3). cbn [pr_msgs pr_errors].
    destruct (IH (mkPair a' (p_b w) (p_ab w) (skipn n (p_ba w)) (p_got_a w ++ delivered l1) (p_got_b w) (p_errors w ++ [])) la l2)
      as (w' & la' & lb' & M & Er & Wa' & Wb' & Gb & Ga & Ea & Eb);
      cbn [p_a p_b p_ab p_ba p_got_a p_got_b p_errors] in *.
    + rewrite K3. exact Sa.
    + exact Sb.
    + rewrite K2. exact Wa.
    + exact W'.
    + exists w', la', lb'. rewrite app_nil_r in Er. refine (conj M (conj Er (conj Wa' (conj Wb' (conj Gb (conj _ (conj Ea Eb))))))).
      rewrite <- Ga, delivered_app, <- !app_assoc. reflexivity.
  - destruct (way_read lib _ _ _ _ _ _ _ _ n Wa) as (l1 & l2 & b' & pd & lf & -> & -> & W' & K2 & K3). cbn [pr_msgs pr_errors].
    destruct (IH (mkPair (p_a w) b' (skipn n (p_ab w)) (p_ba w) (p_got_a w) (p_got_b w ++ delivered l1) (p_errors w ++ [])) l2 lb)
      as (w' & la' & lb' & M & Er & Wa' & Wb' & Gb & Ga & Ea & Eb);
      cbn [p_a p_b p_ab p_ba p_got_a p_got_b p_errors] in *.
    + exact Sa.
    + rewrite K3. exact Sb.
    + exact W'.
    + rewrite K2. exact Wb.
    + exists w', la', lb'. rewrite app_nil_r in Er. refine (conj M (conj Er (conj Wa' (conj Wb' (conj _ (conj Ga (conj Ea Eb))))))).
      rewrite <- Gb, delivered_app, <- !app_assoc. reflexivity.
Qed.
Lemma idle_way a b : at_rest a -> at_rest b -> way (sp_up a) (sp_down b) (sp_errs b) (sp_up a) b [] [] [].
Proof.
  intros (Ba & Ua & Da) (Bb & Ub & Db). unfold way. rewrite Bb.
  refine (conj (Forall_nil _) (conj eq_refl (conj (fun _ => eq_refl) (conj Ua (conj Db _))))).
  unfold is_byte in *. exists ((sp_up a + 255) mod 256). cbn [map chain]. unfold counter_after, is_byte.
  refine (conj _ (conj _ (conj _ (conj eq_refl eq_refl)))); lia.
Qed.
Lemma way_errs u0 d0 e0 u b ch got l : way u0 d0 e0 u b ch got l ->
  sp_errs b = e0 + (if counter_after d0 =? u0 then 0 else match got with [] => 0 | _ => 1 end).
Proof. intros (_ & _ & _ & _ & _ & v & _ & _ & T). destruct got; [destruct T as (_ & _ & ->); destruct (_ =? _); lia | destruct T as (_ & ->); reflexivity]. Qed.
(** whatever the two ends do, in whatever order *)
Lemma duplex lib a b l ma mb : at_rest a -> at_rest b -> talk (sp_skip a) (sp_skip b) l ma mb ->
  exists w under_way_b under_way_a, moves lib (idle_pair a b) l = Some w
  /\ as_data ma = p_got_b w ++ under_way_b /\ as_data mb = p_got_a w ++ under_way_a
  /\ (p_ab w = [] -> under_way_b = []) /\ (p_ba w = [] -> under_way_a = [])
  /\ p_errors w = []
  /\ sp_errs (p_a w) = sp_errs a + first_jump b a (p_got_a w) /\ sp_errs (p_b w) = sp_errs b + first_jump a b (p_got_b w).
Proof.
  intros Ra Rb T.
  destruct (talk_runs lib _ _ _ _ _ _ _ _ _ _ _ T (idle_pair a b) [] [] eq_refl eq_refl (idle_way a b Ra Rb) (idle_way b a Rb Ra))
    as (w & la & lb & M & Er & Wa & Wb & Gb & Ga & _).
  exists w, (delivered la), (delivered lb). refine (conj M (conj Gb (conj Ga (conj _ (conj _ (conj Er (conj (way_errs _ _ _ _ _ _ _ _ Wb) (way_errs _ _ _ _ _ _ _ _ Wa)))))))).
  - intros N. destruct Wa as (_ & _ & Z & _). rewrite (Z N). reflexivity.
  - intros N. destruct Wb as (_ & _ & Z & _). rewrite (Z N). reflexivity.
Qed.
Lemma moves_app lib l1 : forall w l2, moves lib w (l1 ++ l2) = match moves lib w l1 with Some w' => moves lib w' l2 | None => None end.
Proof. induction l1 as [|mv l1 IH]; intros w l2; [reflexivity|]. cbn [app moves]. destruct (move lib w mv); [apply IH | reflexivity]. Qed.
Lemma way_rest u0 d0 e0 u b got l : way u0 d0 e0 u b [] got l -> sp_buf b = [] /\ is_byte (sp_down b) /\ is_byte u.
Proof. intros (_ & E & Z & U & D & _). rewrite (Z eq_refl), app_nil_r in E. auto. Qed.
(** after any schedule, one read at each end that is long enough brings the rest *)
Lemma duplex_drain lib a b l ma mb w : at_rest a -> at_rest b -> talk (sp_skip a) (sp_skip b) l ma mb ->
  moves lib (idle_pair a b) l = Some w -> forall n k, (length (p_ab w) <= n)%nat -> (length (p_ba w) <= k)%nat ->
  exists w', moves lib w [BReads n; AReads k] = Some w' /\ p_got_b w' = as_data ma /\ p_got_a w' = as_data mb
  /\ p_ab w' = [] /\ p_ba w' = [] /\ p_errors w' = [] /\ at_rest (p_a w') /\ at_rest (p_b w').
Proof.
  intros Ra Rb T M n k Ln Lk.
  destruct (talk_runs lib _ _ _ _ _ _ _ _ _ _ _ T (idle_pair a b) [] [] eq_refl eq_refl (idle_way a b Ra Rb) (idle_way b a Rb Ra))
    as (w0 & la & lb & M0 & Er & Wa & Wb & Gb & Ga & Sa & Sb). rewrite M in M0. injection M0 as <-.
  destruct (way_read lib _ _ _ _ _ _ _ _ n Wa) as (l1 & l2 & b' & pd & lf & -> & Es & W' & K2 & K3).
  rewrite skipn_all2 in W' by exact Ln.
  destruct (way_read lib _ _ _ _ _ _ _ _ k Wb) as (l1' & l2' & a' & pd' & lf' & -> & Es' & W'' & K2' & K3').
  rewrite skipn_all2 in W'' by exact Lk.
  cbn [moves move]. rewrite Es. cbn [p_a p_b p_ab p_ba p_got_a p_got_b p_errors pr_msgs pr_errors]. rewrite Es'.
  cbn [pr_msgs pr_errors]. eexists. refine (conj eq_refl _).
  cbn [p_a p_b p_ab p_ba p_got_a p_got_b p_errors].
  destruct (way_rest _ _ _ _ _ _ _ W') as (R1 & R2 & R3). destruct (way_rest _ _ _ _ _ _ _ W'') as (R1' & R2' & R3').
  assert (N : l2 = []) by (destruct W' as (_ & _ & Z & _); apply Z; reflexivity).
  assert (N' : l2' = []) by (destruct W'' as (_ & _ & Z & _); apply Z; reflexivity). subst l2 l2'.
  cbn [idle_pair p_got_a p_got_b delivered map app] in Gb, Ga. rewrite !app_nil_r in Gb, Ga.
  rewrite Er, !skipn_all2 by assumption.
  refine (conj (eq_sym Gb) (conj (eq_sym Ga) (conj eq_refl (conj eq_refl (conj eq_refl (conj (conj R1' (conj _ R2')) (conj R1 (conj _ R2)))))))).
  - rewrite K2'. exact R3.
  - rewrite K2. exact R3'.
Qed.
(** two new objects: the first frame that arrives counts as one error, nothing else does *)
Lemma duplex_fresh lib ska skb l ma mb : talk ska skb l ma mb ->
  exists w, moves lib (idle_pair (new_parser ska) (new_parser skb)) l = Some w /\ p_errors w = []
  /\ sp_errs (p_a w) = (match p_got_a w with [] => 0 | _ => 1 end) /\ sp_errs (p_b w) = (match p_got_b w with [] => 0 | _ => 1 end).
Proof.
  intros T. assert (R : forall sk, at_rest (new_parser sk)) by (intros sk; unfold at_rest, is_byte; cbn; split; [reflexivity | lia]).
  destruct (duplex lib (new_parser ska) (new_parser skb) l ma mb (R _) (R _) T) as (w & ub & ua & M & _ & _ & _ & _ & Er & Ea & Eb).
  exists w. exact (conj M (conj Er (conj Ea Eb))).
Qed.
