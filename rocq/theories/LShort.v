(** Frames whose length byte does not count the CRC. *)
From Coq Require Import ZifyBool ZifyNat.
From Verif Require Export LDll.
Ltac Zify.zify_post_hook ::= Z.div_mod_to_equations.

(** the loop reads exactly these items *)
Fixpoint cover {A} (parsed total : Z) (items : list (list bool * A)) : Prop :=
  match items with
  | [] => total <= parsed
  | (l, _) :: r => parsed < total /\ cover (parsed + zlen l / 8) total r
  end.
Lemma actions_cover items : Forall (fun x => accepts parse_action (fst x) (snd x) /\ whole8 (fst x)) items ->
  forall fuel parsed total, (length items < fuel)%nat -> cover parsed total items ->
  accepts_aligned (parse_actions fuel parsed total) (concat (map fst items)) (map snd items).
Proof.
  induction 1 as [|[l a] items [Ha [W1 W2]] Hi IH]; intros fuel parsed total Hf Hp ps rest Hps;
    (destruct fuel as [|fuel]; [cbn [length] in Hf; lia|]); cbn [map concat fst snd parse_actions cover] in *.
  - replace (parsed <? total) with false by lia. unfold ret. cbn [app length]. do 3 f_equal. lia.
  - destruct Hp as [P1 P2]. unfold zlen in *. rewrite app_length in *. replace (parsed <? total) with true by lia.
    unfold bindp at 1. unfold bytepos at 1. cbn [pos].
    replace (Z.of_nat ps mod 8 =? 0) with true by lia.
    unfold bindp at 1. rewrite <- app_assoc, Ha.
    unfold bindp at 1. unfold bytepos at 1. cbn [pos].
    replace (Z.of_nat (ps + length l) mod 8 =? 0) with true by lia.
    unfold bindp at 1. rewrite IH; [|cbn [length] in Hf; lia | | lia].
    + unfold ret. do 3 f_equal. lia.
    + match goal with |- cover ?p _ _ => replace p with (parsed + Z.of_nat (length l) / 8) by lia end. exact P2.
Qed.
Lemma alp_cover items n : Forall (fun x => accepts parse_action (fst x) (snd x) /\ whole8 (fst x)) items ->
  n <> 0 -> cover 0 n items -> forall c, mk_command 0 (map snd items) false None true = Ok c ->
  accepts_aligned (alp_parse n) (concat (map fst items)) c.
Proof.
  intros H Hn Hc c Ec ps rest Hps. unfold alp_parse.
  assert (L : (8 * length items <= length (concat (map fst items)))%nat).
  { apply items_len. eapply Forall_impl; [|exact H]. cbn. tauto. }
  replace (n =? 0) with false by lia. unfold bindp. cbn [bits].
  rewrite (actions_cover items H); [|rewrite app_length; lia | exact Hc | exact Hps].
  rewrite Ec. reflexivity.
Qed.
Lemma cover_last {A} (pre : list (list bool * A)) l a total : Forall (fun x => whole8 (fst x)) pre -> whole8 l ->
  forall parsed, parsed + zlen (concat (map fst pre)) / 8 < total <= parsed + zlen (concat (map fst pre)) / 8 + zlen l / 8 ->
  cover parsed total (pre ++ [(l, a)]).
Proof.
  induction 1 as [|[x b] pre [W1 W2] Hp IH]; intros Wl parsed H; cbn [app map concat fst cover] in *.
  - unfold zlen in *. cbn [length] in H. lia.
  - unfold zlen in *. rewrite app_length in H. split; [lia|]. apply IH; [exact Wl|]. lia.
Qed.
Lemma items_last c a : command_item_list (with_last c a) = command_item_list c ++ [(action_layout a, Some (action_received a))].
Proof. unfold command_item_list. cbn [with_last c_generate c_tag c_respond c_actions]. rewrite map_app, app_assoc. reflexivity. Qed.
Lemma layout_last c a : command_layout (with_last c a) = command_layout c ++ action_layout a.
Proof.
  unfold command_layout. cbn [with_last c_generate c_tag c_respond c_actions]. rewrite flat_map_app. cbn [flat_map].
  rewrite app_nil_r, app_assoc. reflexivity.
Qed.
Lemma wf_last c a : command_wf (with_last c a) -> command_wf c /\ action_wf a.
Proof.
  intros (F & P & S & T). cbn [with_last c_generate c_tag c_respond c_actions c_status] in *.
  apply Forall_app in F as [F1 F2]. rewrite forallb_app in P. apply andb_true_iff in P as [P1 _].
  split; [|inversion F2; subst; assumption]. exact (conj F1 (conj P1 (conj S T))).
Qed.
Lemma command_layout_whole c : command_wf c -> (length (command_layout c) mod 8 = 0)%nat.
Proof. intros W. eapply emits_whole. apply command_emits. exact W. Qed.
(** two bytes missing, last action longer than that *)
Lemma short_long c a : command_wf (with_last c a) -> (16 < length (action_layout a))%nat ->
  accepts_aligned (alp_parse (command_bytes (with_last c a) - 2)) (command_layout (with_last c a)) (command_received (with_last c a)).
Proof.
  intros W L. destruct (command_items _ W) as (H1 & H2 & H3). destruct (wf_last _ _ W) as [Wc Wa].
  destruct (command_items _ Wc) as (G1 & G2 & _). pose proof (command_layout_whole _ Wc) as Mc.
  pose proof (action_whole _ Wa) as Ma. rewrite <- H2. unfold command_bytes. rewrite layout_last. unfold zlen. rewrite app_length.
  destruct Ma as [Ma1 Ma2].
  apply alp_cover; [exact H1 | lia | | exact H3]. rewrite items_last. apply cover_last.
  - eapply Forall_impl; [|exact G1]. cbn. tauto.
  - split; assumption.
  - rewrite G2. unfold zlen. lia.
Qed.
Lemma fg_room_short rfu f alp : fg_head_wf f -> fg_length_without_crc rfu f alp -> ff_length f <= 127 ->
  fg_room rfu f = zlen alp / 8 - 2.
Proof.
  intros W L H. unfold fg_length_without_crc, zlen in L. rewrite fg_layout_len in L.
  pose proof (fg_target_len f W) as Lt. destruct W as (Bl & Bs & Be & Ft & T & Wn & Bc).
  rewrite bytes_bits_length in *.
  pose proof (np_head_len rfu _ Wn) as Ln. pose proof (np_origin_len _ Wn) as Lo.
  destruct Wn as (_ & _ & _ & _ & _ & Wt). pose proof (tp_head_len rfu _ Wt) as Ltp.
  unfold fg_room, signed8, is_byte, zlen in *. replace (ff_length f <? 128) with true by lia.
  assert (M : (length (np_head rfu (ff_np f)) mod 8 = 0)%nat).
  { rewrite Ln, Lo, Ltp. clear. set (c := tf_control _). set (d := nf_control _).
    destruct (nc_no_origin d), (nc_id_type d), (tc_agc c), (tc_tl c), (tc_te c), (tc_ack_req c && tc_start c); reflexivity. }
  lia.
Qed.
Lemma short_frame_ok rfu f c a : fg_head_wf f -> command_wf (with_last c a) -> fg_command f = command_received (with_last c a) ->
  fg_length_without_crc rfu f (command_layout (with_last c a)) -> ff_length f <= 127 -> ff_subnet f <= 127 ->
  (16 < length (action_layout a))%nat ->
  accepts_aligned fg_parse (fg_layout rfu f (command_layout (with_last c a))) f.
Proof.
  intros W Wc E L H1 H2 Ha. pose proof (fg_at rfu f (command_layout (with_last c a)) W) as K.
  rewrite (fg_made_ok f W H1 H2), (fg_room_short rfu f _ W L H1), E in K.
  intros ps rest M. apply K; [|exact M]. apply at_aligned. apply short_long; assumption.
Qed.
Lemma short_frame_drops rfu f c a : fg_head_wf f -> command_wf (with_last c a) -> fg_command f = command_received (with_last c a) ->
  fg_length_without_crc rfu f (command_layout (with_last c a)) -> ff_length f <= 127 -> ff_subnet f <= 127 ->
  length (action_layout a) = 16%nat ->
  forall ps rest, (ps mod 8 = 0)%nat ->
  fg_parse (St ps (fg_layout rfu f (command_layout (with_last c a)) ++ rest)) =
  Ok (with_command f (command_received c) (bits_val (action_layout a)),
      St (ps + 8 * Z.to_nat (ff_length f + 1)) (Zbits 16 (ff_crc f) ++ rest)).
Proof.
  intros W Wc E L H1 H2 Ha ps rest M. destruct (wf_last _ _ Wc) as [Wc1 Wa].
  set (f' := with_command f (command_received c) (bits_val (action_layout a))).
  assert (W' : fg_head_wf f').
  { destruct W as (Bl & Bs & Be & Ft & T & Wn & Bc). refine (conj Bl (conj Bs (conj Be (conj Ft (conj T (conj Wn _)))))).
    change (ff_crc f') with (bits_val (action_layout a)). pose proof (bits_val_bounds (action_layout a)) as V. unfold zlen in V.
    rewrite Ha in V. change (2 ^ Z.of_nat 16) with 65536 in V. lia. }
  assert (El : fg_layout rfu f (command_layout (with_last c a)) = fg_layout rfu f' (command_layout c) ++ Zbits 16 (ff_crc f)).
  { unfold fg_layout, f', with_command. cbn [ff_length ff_subnet ff_control ff_target ff_np ff_crc].
    rewrite (Zbits_bits_val' 16) by exact Ha. rewrite layout_last. rewrite <- !app_assoc. reflexivity. }
  assert (L' : fg_length_ok rfu f' (command_layout c)).
  { unfold fg_length_ok. unfold fg_length_without_crc in L. rewrite El in L. unfold zlen in *. rewrite app_length, Zbits_length in L.
    change (ff_length f') with (ff_length f). lia. }
  rewrite El, <- app_assoc. pose proof (fg_command_accepts rfu f' c W' Wc1 eq_refl L' H1 H2) as K.
  rewrite K by exact M. do 3 f_equal. unfold fg_length_ok, zlen in L'. change (ff_length f') with (ff_length f) in L'. lia.
Qed.
