(** Lemmas for C94: the bytes identify what was sent *)
From Coq Require Import ZifyBool ZifyNat Lia.
From Verif Require Import Bits SUnique LBits LAction LCommand LAlp.
Open Scope list_scope.
Open Scope Z_scope.

Lemma accepts_prefix {A} (p : P A) l m a b x y : accepts p l a -> accepts p m b -> l ++ x = m ++ y -> a = b /\ x = y.
Proof.
  intros Ha Hb E. pose proof (Ha 0%nat x) as H1. pose proof (Hb 0%nat y) as H2. rewrite E in H1. rewrite H2 in H1.
  injection H1 as -> _ ->. auto.
Qed.
Lemma received_injective a b : action_wf a -> action_wf b -> action_received a = action_received b -> a = b.
Proof.
  intros [_ Ha] [_ Hb]. destruct a as [k o], b as [k' o']. unfold action_received. cbn [a_kind a_op] in *.
  destruct k, o; try contradiction; destruct k', o'; try contradiction; intros E; try discriminate E; try exact E.
  destruct Ha as [-> _], Hb as [-> _]. injection E as -> ->. reflexivity.
Qed.
Lemma action_unique a b x y : action_wf a -> action_wf b -> action_layout a ++ x = action_layout b ++ y -> a = b /\ x = y.
Proof.
  intros Wa Wb E. destruct (accepts_prefix _ _ _ _ _ _ _ (action_accepts a Wa) (action_accepts b Wb) E) as [R ->].
  injection R as R. split; [exact (received_injective a b Wa Wb R) | reflexivity].
Qed.
Lemma action_some a : action_wf a -> action_layout a <> [].
Proof.
  intros [_ H]. destruct a as [k o]. unfold action_layout, act_bits. cbn [a_kind a_op] in *.
  destruct k; try (destruct o; contradiction); discriminate.
Qed.
Lemma actions_unique l : forall m x, Forall action_wf l -> Forall action_wf m ->
  flat_map action_layout m = flat_map action_layout l ++ x -> exists r, m = l ++ r /\ x = flat_map action_layout r.
Proof.
  induction l as [|a l IH]; intros m x Wl Wm E; cbn [flat_map app] in E.
  - exists m. auto.
  - inversion Wl as [|? ? Wa Wl']; subst. destruct m as [|b m].
    + exfalso. cbn [flat_map] in E. symmetry in E. apply app_eq_nil in E. destruct E as [E _]. apply app_eq_nil in E. destruct E as [E _].
      exact (action_some a Wa E).
    + inversion Wm as [|? ? Wb Wm']; subst. cbn [flat_map] in E. rewrite <- app_assoc in E.
      destruct (action_unique b a _ _ Wb Wa E) as [-> E']. destruct (IH m x Wl' Wm' E') as (r & -> & ->). exists r. auto.
Qed.
Lemma emits_eq r s l m : emits r l -> emits s m -> (r = s <-> l = m).
Proof.
  intros (bs & -> & F & E) (cs & -> & G & E'). split.
  - intros H. injection H as ->. congruence.
  - intros ->. f_equal. apply bytes_bits_inj; auto. congruence.
Qed.
Lemma commands_unique c d : command_wf c -> command_wf d -> command_ser c = command_ser d ->
  c_actions c = c_actions d /\ c_generate c = c_generate d
  /\ (c_generate c = true -> c_tag c = c_tag d /\ c_respond c = c_respond d).
Proof.
  intros Wc Wd E. apply (emits_eq _ _ _ _ (command_emits c Wc) (command_emits d Wd)) in E.
  destruct Wc as (Ac & Pc & _ & Tc), Wd as (Ad & Pd & _ & Td). unfold command_layout in E.
  assert (TW : forall r t, 0 <= t <= 255 -> action_wf (mkAction (TagReqAct r) (TagRequest (mkTag t)))) by (intros r t H; split; [exact H | exact Logic.I]).
  assert (TL : forall r t, tag_bits r t = action_layout (mkAction (TagReqAct r) (TagRequest (mkTag t)))) by reflexivity.
  assert (U : forall l m, Forall action_wf l -> Forall action_wf m -> flat_map action_layout l = flat_map action_layout m -> l = m).
  { intros l m Wl Wm H. destruct (actions_unique m l [] Wm Wl) as (r & -> & N); [rewrite app_nil_r; exact H|].
    destruct r as [|a r]; [rewrite app_nil_r; reflexivity|]. exfalso. apply Forall_app in Wl. destruct Wl as [_ Wl]. inversion Wl as [|? ? Wa _]; subst.
    cbn [flat_map] in N. symmetry in N. apply app_eq_nil in N. exact (action_some a Wa (proj1 N)). }
  destruct (c_generate c), (c_generate d).
  - destruct (Tc eq_refl) as (t & Et & Lt), (Td eq_refl) as (t' & Et' & Lt'). rewrite Et, Et', !TL in E.
    destruct (action_unique _ _ _ _ (TW _ _ Lt) (TW _ _ Lt') E) as [H H']. injection H as -> ->.
    rewrite (U _ _ Ac Ad H'). refine (conj eq_refl (conj eq_refl (fun _ => conj _ _))); congruence.
  - exfalso. destruct (Tc eq_refl) as (t & Et & Lt). rewrite Et, TL in E. destruct (c_actions d) as [|a l].
    + cbn [flat_map app] in E. apply app_eq_nil in E. destruct E as [E _]. discriminate E.
    + inversion Ad as [|? ? Wa _]; subst. cbn [flat_map app] in E. destruct (action_unique _ _ _ _ (TW _ _ Lt) Wa E) as [<- _]. discriminate Pd.
  - exfalso. destruct (Td eq_refl) as (t & Et & Lt). rewrite Et, TL in E. destruct (c_actions c) as [|a l].
    + cbn [flat_map app] in E. symmetry in E. apply app_eq_nil in E. destruct E as [E _]. discriminate E.
    + inversion Ac as [|? ? Wa _]; subst. cbn [flat_map app] in E. symmetry in E. destruct (action_unique _ _ _ _ (TW _ _ Lt) Wa E) as [<- _]. discriminate Pc.
  - cbn [app] in E. rewrite (U _ _ Ac Ad E). refine (conj eq_refl (conj eq_refl _)). discriminate.
Qed.
Lemma commands_iff c d : command_wf c -> command_wf d -> (command_ser c = command_ser d <-> same_on_wire c d).
Proof.
  intros Wc Wd. split; [exact (commands_unique c d Wc Wd)|]. intros (A & G & T).
  apply (emits_eq _ _ _ _ (command_emits c Wc) (command_emits d Wd)). unfold command_layout. rewrite <- A, <- G.
  destruct (c_generate c); [|reflexivity]. destruct (T eq_refl) as [-> ->]. reflexivity.
Qed.
Lemma commands_prefix c d cs rest : command_wf c -> command_wf d -> c_generate c = true -> c_generate d = true ->
  command_ser c = Ok cs -> command_ser d = Ok (cs ++ rest) ->
  c_tag c = c_tag d /\ c_respond c = c_respond d
  /\ exists r, c_actions d = c_actions c ++ r /\ bytes_bits rest = flat_map action_layout r.
Proof.
  intros Wc Wd Gc Gd Ec Ed. destruct (command_emits c Wc) as (bs & E1 & _ & L1), (command_emits d Wd) as (bs' & E2 & _ & L2).
  rewrite Ec in E1. injection E1 as <-. rewrite Ed in E2. injection E2 as <-.
  destruct Wc as (Ac & Pc & _ & Tc), Wd as (Ad & Pd & _ & Td). unfold command_layout in L1, L2. rewrite Gc in L1. rewrite Gd in L2.
  assert (TW : forall r t, 0 <= t <= 255 -> action_wf (mkAction (TagReqAct r) (TagRequest (mkTag t)))) by (intros r t H; split; [exact H | exact Logic.I]).
  assert (TL : forall r t, tag_bits r t = action_layout (mkAction (TagReqAct r) (TagRequest (mkTag t)))) by reflexivity.
  destruct (Tc Gc) as (t & Et & Lt), (Td Gd) as (t' & Et' & Lt'). rewrite Et in *. rewrite Et' in *. rewrite bytes_bits_app, L1, !TL, <- app_assoc in L2.
  destruct (action_unique _ _ _ _ (TW _ _ Lt) (TW _ _ Lt') L2) as [H H']. injection H as -> ->. symmetry in H'.
  destruct (actions_unique _ _ _ Ac Ad H') as (r & Er & Eb). refine (conj eq_refl (conj eq_refl _)). exists r. auto.
Qed.
Lemma frame_unique c t p c' t' p' x y : frame c t p ++ x = frame c' t' p' ++ y -> c = c' /\ t = t' /\ p = p' /\ x = y.
Proof.
  intros E. unfold frame in E. destruct (calculate_crc p), (calculate_crc p'). cbn [app] in E.
  injection E as -> -> Z1 _ _ E. assert (K : length p = length p') by (unfold zlen in Z1; lia).
  assert (P : firstn (length p) (p ++ x) = firstn (length p) (p' ++ y)) by (rewrite E; reflexivity).
  rewrite K in P at 2. rewrite !firstn_app, !Nat.sub_diag, !firstn_all in P. cbn [firstn] in P. rewrite !app_nil_r in P. subst p'.
  apply app_inv_head in E. auto.
Qed.
Lemma streams_unique l : forall m x, line_bytes m = line_bytes l ++ x -> exists r, m = l ++ r /\ x = line_bytes r.
Proof.
  assert (N : forall c t p, frame c t p <> []) by (intros c t p; unfold frame; destruct (calculate_crc p); discriminate).
  induction l as [|[[c t] p] l IH]; intros m x E; [exists m; auto|]. unfold line_bytes in E. destruct m as [|[[c' t'] p'] m]; cbn [flat_map] in E.
  - exfalso. symmetry in E. apply app_eq_nil in E. destruct E as [E _]. apply app_eq_nil in E. exact (N _ _ _ (proj1 E)).
  - rewrite <- app_assoc in E. destruct (frame_unique _ _ _ _ _ _ _ _ E) as (-> & -> & -> & E').
    destruct (IH m x E') as (r & -> & ->). exists r. auto.
Qed.
Lemma streams_injective l m : line_bytes l = line_bytes m -> l = m.
Proof.
  intros E. destruct (streams_unique m l []) as (r & -> & H); [rewrite app_nil_r; exact E|]. destruct r as [|[[c t] p] r]; [apply app_nil_r|].
  exfalso. unfold line_bytes, frame in H. cbn [flat_map] in H. destruct (calculate_crc p). discriminate H.
Qed.
Lemma codec_unique {A} wf layout ser (parse : P A) : codec wf layout ser parse -> forall x y, wf x -> wf y ->
  (ser x = ser y -> x = y) /\ forall u v, layout x ++ u = layout y ++ v -> x = y /\ u = v.
Proof.
  intros C x y Wx Wy. destruct (C x Wx) as [Ex Ax], (C y Wy) as [Ey Ay]. split.
  - intros E. apply (emits_eq _ _ _ _ Ex Ey) in E. apply (accepts_prefix _ _ _ x y [] [] Ax Ay). rewrite E. reflexivity.
  - intros u v E. exact (accepts_prefix _ _ _ x y u v Ax Ay E).
Qed.
