(** System file codecs. *)
From Coq Require Import ZifyBool ZifyNat.
From Verif Require Export LTypes SFiles.
Ltac Zify.zify_post_hook ::= Z.div_mod_to_equations.

Ltac franges := unfold byte_ok, word_ok, long_ok in *; ranges.
Ltac facc1 := cbv beta; match goal with
  | |- accepts (bindp (lift _) _) _ _ => eapply accepts_bind0; [solve [acc_leaf | eauto]|]
  | |- accepts (bindp (read_uint _) _) (_ ++ _) _ => eapply accepts_bind; [apply accepts_uint; solve [franges; lia]|]
  | |- accepts (bindp (read_int _) _) (_ ++ _) _ => eapply accepts_bind; [apply accepts_int; solve [franges; lia]|]
  | |- accepts (bindp (read_uint _) _) _ _ => eapply accepts_bind_l; [apply accepts_uint; solve [franges; lia]|]
  | |- accepts (bindp (read_int _) _) _ _ => eapply accepts_bind_l; [apply accepts_int; solve [franges; lia]|]
  | |- accepts (lift _) [] _ => apply accepts_lift; apply validated_ok; solve [franges; lia]
  end.
Ltac facc := repeat facc1.
Ltac femit := repeat first
  [ apply emits_app
  | apply emits_yield1; solve [franges; lia]
  | apply (emits_pack_be 2); solve [franges; lia]
  | apply (emits_pack_be 4); solve [franges; lia]
  | apply (emits_pack_be 8); solve [franges; lia]
  | apply emits_pack_b; solve [franges; lia] ].

Lemma uid_codec : codec uid_wf uid_layout uid_ser uid_parse.
Proof.
  intros [u]. unfold uid_wf, uid_layout, uid_ser, uid_parse. cbn [uid_uid]. intros H. split; [femit|].
  unfold mk_uid. facc.
Qed.
Lemma vid_codec : codec vid_wf vid_layout vid_ser vid_parse.
Proof.
  intros [v c]. unfold vid_wf, vid_layout, vid_ser, vid_parse. cbn [vid_vid vid_control]. intros (H1 & H2). split; [femit|].
  unfold mk_vid. facc.
Qed.
Lemma dc_accepts r f : 0 <= r <= 65535 -> dc_wf f -> accepts dll_config_parse (dc_bits r f) f.
Proof.
  destruct f as [a l n r' t]. unfold dc_wf, dc_bits, dll_config_parse, mk_dll_config.
  cbn [dc_access_class dc_lq_filter dc_nf_ctrl dc_rx_nf dc_tx_nf]. intros R (H1 & H2 & H3 & H4 & H5). facc.
Qed.
Lemma dc_codec : codec dc_wf dc_layout dll_config_ser dll_config_parse.
Proof.
  intros f H. split; [|apply dc_accepts; [lia | exact H]].
  destruct f as [a l n r' t]. unfold dc_wf, dc_layout, dc_bits, dll_config_ser in *.
  cbn [dc_access_class dc_lq_filter dc_nf_ctrl dc_rx_nf dc_tx_nf] in *. destruct H as (H1 & H2 & H3 & H4 & H5). femit.
Qed.
Lemma ds_accepts r f : ds_wf f -> accepts dll_status_parse (ds_bits r f) f.
Proof.
  destruct f as [a b c h i ra sc ti]. unfold ds_wf, ds_bits, dll_status_parse, mk_dll_status.
  cbn [ds_level ds_budget ds_noise ds_header ds_index ds_ratio ds_scan ds_timeout].
  intros (H1 & H2 & H3 & H4 & H5 & H6 & H7). do 3 facc1. eapply accepts_bind; [apply ch_accepts|]. facc.
Qed.
Lemma ds_codec : codec ds_wf ds_layout dll_status_ser dll_status_parse.
Proof.
  intros f H. split; [|apply ds_accepts; exact H].
  destruct f as [a b c h i ra sc ti]. unfold ds_wf, ds_layout, ds_bits, dll_status_ser in *.
  cbn [ds_level ds_budget ds_noise ds_header ds_index ds_ratio ds_scan ds_timeout] in *.
  destruct H as (H1 & H2 & H3 & H4 & H5 & H6 & H7).
  do 3 (apply emits_app; [femit|]). apply emits_app; [apply ch_emits|]. femit.
Qed.
Lemma em_accepts r f : em_wf f -> accepts eng_parse (em_bits r f) f.
Proof.
  destruct f as [m fl ti c ei]. unfold em_wf, em_bits, eng_parse, mk_eng.
  cbn [em_mode em_flags em_timeout em_channel em_eirp]. intros (H1 & H2 & H3 & H4).
  eapply accepts_bind; [apply accepts_uint; destruct m; cbn; lia|].
  eapply accepts_bind0; [apply accepts_lift; instantiate (1 := m); destruct m; reflexivity|].
  do 2 facc1. eapply accepts_bind; [apply cid_accepts; exact H3|]. facc.
Qed.
Lemma em_emits f : em_wf f -> emits (eng_ser f) (em_layout f).
Proof.
  destruct f as [m fl ti c ei]. unfold em_wf, em_layout, em_bits, eng_ser.
  cbn [em_mode em_flags em_timeout em_channel em_eirp]. intros (H1 & H2 & H3 & H4). rewrite <- !app_assoc.
  apply emits_app; [destruct m; apply emits_by_check; reflexivity|]. do 2 (apply emits_app; [femit|]).
  apply emits_app; [apply cid_emits; exact H3|]. apply emits_app; [femit|].
  change (Zbits 16 0) with (Zbits 8 0 ++ Zbits 8 0). femit.
Qed.

(** whatever is parsed is well-formed, and what was read is its layout up to
    the reserved bits *)
Ltac rd_inv := match goal with
  | H : bindp _ _ _ = Ok _ |- _ => apply bindp_inv in H as (? & ? & ? & H)
  | H : read_uint _ _ = Ok _ |- _ => apply read_uint_inv in H as (? & ? & ?)
  | H : read_int _ _ = Ok _ |- _ => apply read_int_inv in H as (? & ? & ?); [|lia]
  | H : lift _ _ = Ok _ |- _ => apply lift_inv in H as [H ?]; subst
  | H : validated _ _ = Ok _ |- _ => apply validated_inv in H as [? <-]
  end.
Lemma uid_canonical : canonical uid_wf uid_layout uid_parse.
Proof.
  intros s f s' H. unfold uid_parse, mk_uid in H. repeat rd_inv. unfold uid_wf, uid_layout. cbn [uid_uid].
  rewrite Zbits_length. repeat split; franges; try assumption.
Qed.
Lemma vid_canonical : canonical vid_wf vid_layout vid_parse.
Proof.
  intros s f s' H. unfold vid_parse, mk_vid in H. repeat rd_inv. unfold vid_wf, vid_layout. cbn [vid_vid vid_control].
  rewrite app_length, !Zbits_length. repeat split; franges. rewrite <- app_assoc. congruence.
Qed.
Lemma dc_inv s f s' : dll_config_parse s = Ok (f, s') ->
  dc_wf f /\ exists r, 0 <= r <= 65535 /\ bits s = dc_bits r f ++ bits s' /\ pos s' = (pos s + 56)%nat.
Proof.
  unfold dll_config_parse, mk_dll_config. intros H. repeat rd_inv. unfold dc_wf, dc_bits.
  cbn [dc_access_class dc_lq_filter dc_nf_ctrl dc_rx_nf dc_tx_nf]. split; [repeat split; franges|].
  eexists. refine (conj _ (conj _ _)); [| |lia].
  2: rewrite <- !app_assoc; repeat (etransitivity; [eassumption | f_equal]); reflexivity.
  franges.
Qed.
Lemma ds_inv s f s' : dll_status_parse s = Ok (f, s') ->
  ds_wf f /\ exists r, bits s = ds_bits r f ++ bits s' /\ pos s' = (pos s + 128)%nat.
Proof.
  unfold dll_status_parse, mk_dll_status. intros H. repeat rd_inv.
  match goal with H : ch_parse _ = Ok _ |- _ => apply ch_inv in H as (r & ? & ?) end.
  unfold ds_wf, ds_bits. cbn [ds_level ds_budget ds_noise ds_header ds_index ds_ratio ds_scan ds_timeout].
  split; [repeat split; franges|]. exists r. split; [|lia].
  rewrite <- !app_assoc; repeat (etransitivity; [eassumption | f_equal]); reflexivity.
Qed.
Lemma engmode_inv v m : engmode_of v = Ok m -> v = em_code m.
Proof. unfold engmode_of. enum_inv. Qed.
Lemma em_inv s f s' : eng_parse s = Ok (f, s') ->
  em_wf f /\ exists r, bits s = em_bits r f ++ bits s' /\ pos s' = (pos s + 56)%nat.
Proof.
  unfold eng_parse, mk_eng. intros H. repeat rd_inv.
  match goal with H : engmode_of _ = Ok _ |- _ => apply engmode_inv in H; subst end.
  match goal with H : cid_parse _ = Ok _ |- _ => apply cid_inv in H as (? & r & ? & ?) end.
  unfold em_wf, em_bits. cbn [em_mode em_flags em_timeout em_channel em_eirp].
  split; [refine (conj _ (conj _ (conj _ _))); first [assumption | franges]|]. exists r. split; [|lia].
  rewrite <- !app_assoc; repeat (etransitivity; [eassumption | f_equal]); reflexivity.
Qed.

(** ** Firmware version *)
Lemma padded_length n l : (length l <= n)%nat -> length (padded n l) = n.
Proof. intros H. unfold padded. rewrite app_length, repeat_length. lia. Qed.
Lemma padded_same n l : (length l <= n)%nat -> (padded n l = l <-> length l = n).
Proof.
  intros H. split; intros E.
  - rewrite <- E. apply padded_length. exact H.
  - unfold padded. replace (n - length l)%nat with O by lia. apply app_nil_r.
Qed.
Lemma padded_bytes n l : Forall (fun c => 0 <= c <= 127) l -> Forall (fun c => 0 <= c <= 127) (padded n l).
Proof. intros H. apply Forall_app. split; [exact H|]. apply Forall_forall. intros x I. apply repeat_spec in I. lia. Qed.
Lemma ascii_byte l : Forall (fun c => 0 <= c <= 127) l -> Forall is_byte l.
Proof. apply Forall_impl. intros. unfold is_byte. lia. Qed.
Lemma ascii_ok l : Forall (fun c => 0 <= c <= 127) l -> ascii_only l = Ok l.
Proof.
  intros H. unfold ascii_only. replace (forallb _ l) with true; [reflexivity|]. symmetry. apply forallb_forall.
  rewrite Forall_forall in H. intros x I. specialize (H x I). unfold in_range. lia.
Qed.
Lemma ascii_inv l l' : ascii_only l = Ok l' -> l' = l /\ Forall (fun c => 0 <= c <= 127) l.
Proof.
  unfold ascii_only. destruct (forallb _ l) eqn:E; intros [= <-]. split; [reflexivity|]. apply Forall_forall.
  intros x I. rewrite forallb_forall in E. specialize (E x I). unfold in_range in E. lia.
Qed.
Lemma fw_emits f : fw_wf f -> emits (fw_ser f) (fw_layout f).
Proof.
  destruct f as [a b c d app git]. unfold fw_wf, fw_layout, fw_ser.
  cbn [fw_major fw_minor fw_fs_major fw_fs_minor fw_app fw_git]. intros (H1 & H2 & H3 & H4 & (H5 & L5) & (H6 & L6)).
  rewrite !ascii_ok by assumption. unfold rbind. cbv iota. fold (padded 6 app) (padded 7 git).
  do 4 (apply emits_app; [femit|]). apply emits_app; apply emits_yields, ascii_byte, padded_bytes; assumption.
Qed.
Lemma fw_accepts f : fw_wf f -> accepts fw_parse (fw_layout f) (fw_padded f).
Proof.
  destruct f as [a b c d app git]. unfold fw_wf, fw_layout, fw_parse, fw_padded.
  cbn [fw_major fw_minor fw_fs_major fw_fs_minor fw_app fw_git]. intros (H1 & H2 & H3 & H4 & (H5 & L5) & (H6 & L6)).
  do 4 facc1.
  eapply accepts_bind; [apply accepts_bytes; [apply ascii_byte, padded_bytes; assumption | unfold zlen; rewrite padded_length by assumption; reflexivity]|].
  eapply accepts_bind0; [apply accepts_lift, ascii_ok, padded_bytes; assumption|].
  eapply accepts_bind_l; [apply accepts_bytes; [apply ascii_byte, padded_bytes; assumption | unfold zlen; rewrite padded_length by assumption; reflexivity]|].
  eapply accepts_bind0; [apply accepts_lift, ascii_ok, padded_bytes; assumption|].
  apply accepts_lift, validated_ok. rewrite !padded_length by assumption. franges.
Qed.
Lemma fw_survives f : fw_wf f -> (accepts fw_parse (fw_layout f) f <-> length (fw_app f) = 6%nat /\ length (fw_git f) = 7%nat).
Proof.
  intros W. pose proof (fw_accepts f W) as A.
  assert (E : fw_padded f = f <-> length (fw_app f) = 6%nat /\ length (fw_git f) = 7%nat).
  { destruct f as [a b c d app git]. destruct W as (_ & _ & _ & _ & [_ L5] & [_ L6]). unfold fw_padded.
    cbn [fw_major fw_minor fw_fs_major fw_fs_minor fw_app fw_git] in *.
    rewrite <- (padded_same 6) by assumption. rewrite <- (padded_same 7) by assumption. split; [intros [= -> ->]; auto | intros [-> ->]; reflexivity]. }
  rewrite <- E. split; [intros B; exact (accepts_inj _ _ _ _ A B) | intros X; rewrite X in A; exact A].
Qed.
Lemma fw_canonical : canonical fw_wf fw_layout fw_parse.
Proof.
  intros s f s' H. unfold fw_parse, mk_fw in H. repeat rd_inv.
  repeat match goal with
  | H : ascii_only _ = Ok _ |- _ => apply ascii_inv in H as [-> ?]
  | H : read_bytes _ _ = Ok _ |- _ => apply read_bytes_inv in H as (? & ? & ? & ?); [|lia]
  end.
  unfold fw_wf, fw_layout, ascii_text. cbn [fw_major fw_minor fw_fs_major fw_fs_minor fw_app fw_git].
  assert (P6 : forall l, zlen l = 6 -> padded 6 l = l) by (intros l E; apply padded_same; unfold zlen in E; lia).
  assert (P7 : forall l, zlen l = 7 -> padded 7 l = l) by (intros l E; apply padded_same; unfold zlen in E; lia).
  rewrite P6, P7 by assumption. refine (conj _ (conj _ _)).
  - unfold zlen in *. repeat split; try assumption; franges.
  - rewrite <- !app_assoc; repeat (etransitivity; [eassumption | f_equal]); reflexivity.
  - rewrite !app_length, !Zbits_length. lia.
Qed.

(** ** Factory settings *)
Lemma flat_uint n l : Forall (fun v => 0 <= v < 2 ^ Z.of_nat n) l ->
  accepts (read_n (length l) (read_uint n)) (flat_map (Zbits n) l) l.
Proof.
  induction 1 as [|v l H F IH]; [apply accepts_ret|]. cbn [length read_n flat_map].
  eapply accepts_bind; [apply accepts_uint; exact H|]. eapply accepts_bind_l; [exact IH|]. apply accepts_ret.
Qed.
Lemma flat_uint' k n l : length l = k -> Forall (fun v => 0 <= v < 2 ^ Z.of_nat n) l ->
  accepts (read_n k (read_uint n)) (flat_map (Zbits n) l) l.
Proof. intros <-. apply flat_uint. Qed.
Lemma emits_longs l : Forall long_ok l -> emits (rconcat (map (pack_be 4) l)) (flat_map (Zbits 32) l).
Proof.
  intros H. apply emits_rconcat. eapply Forall_impl; [|exact H]. intros v R. apply (emits_pack_be 4). franges.
Qed.
Lemma bytes_bits_flat l : bytes_bits l = flat_map (Zbits 8) l.
Proof. reflexivity. Qed.
Lemma emits_bytes l : Forall byte_ok l -> emits (yields l) (flat_map (Zbits 8) l).
Proof. intros H. rewrite <- bytes_bits_flat. apply emits_yields. eapply Forall_impl; [|exact H]. intros. unfold is_byte. franges. Qed.
Lemma fs_emits f : fs_wf f -> emits (factory_ser f) (fs_layout f).
Proof.
  destruct f as [g r p t s o b sf ga pa]. unfold fs_wf, fs_layout, factory_ser.
  cbn [fs_gain fs_rates fs_pre fs_tol fs_smoothing fs_offset fs_lora_bw fs_lora_sf fs_gaussian fs_paramp].
  intros (H1 & H2 & L2 & H3 & L3 & H4 & L4 & H5 & H6 & H7 & H8 & H9 & H10).
  apply emits_app; [femit|]. apply emits_app; [apply emits_longs; exact H2|].
  do 2 (apply emits_app; [apply emits_bytes; assumption|]). femit.
Qed.
Lemma forallb_range lo hi l : Forall (fun v => lo <= v <= hi) l -> forallb (in_range lo hi) l = true.
Proof. intros H. apply forallb_forall. rewrite Forall_forall in H. intros x I. specialize (H x I). unfold in_range. lia. Qed.
Lemma forallb_range_inv lo hi l : forallb (in_range lo hi) l = true -> Forall (fun v => lo <= v <= hi) l.
Proof. intros H. apply Forall_forall. rewrite forallb_forall in H. intros x I. specialize (H x I). unfold in_range in H. lia. Qed.
(** reading the bytes back is the construction from the stored values *)
Lemma fs_reads f r : fs_wf f ->
  (forall s, factory_parse (St s (fs_layout f ++ r)) =
    match mk_factory (fs_gain f) (fs_rates f) (fs_pre f) (fs_tol f) (fs_smoothing f) (fs_offset f)
                     (fs_lora_bw f) (fs_lora_sf f) (fs_gaussian f) (fs_paramp f) with
    | Ok g => Ok (g, St (s + length (fs_layout f)) r)
    | Err e => Err e end).
Proof.
  intros W s.
  set (mk := mk_factory _ _ _ _ _ _ _ _ _ _).
  set (P := factory_parse).
  assert (A : forall g, mk = Ok g -> accepts P (fs_layout f) g).
  { intros g E. subst P mk. destruct f as [g' rr p t sm o b sf ga pa]. unfold fs_wf, fs_layout, factory_parse in *.
    cbn [fs_gain fs_rates fs_pre fs_tol fs_smoothing fs_offset fs_lora_bw fs_lora_sf fs_gaussian fs_paramp] in *.
    destruct W as (H1 & H2 & L2 & H3 & L3 & H4 & L4 & H5 & H6 & H7 & H8 & H9 & H10).
    facc1.
    do 3 (eapply accepts_bind; [apply flat_uint'; [assumption|]; eapply Forall_impl; [|eassumption]; intros; solve [franges; lia]|]).
    facc. apply accepts_lift. exact E. }
  assert (B : forall e, mk = Err e -> rejects P (fs_layout f) e).
  { intros g E. subst P mk. destruct f as [g' rr p t sm o b sf ga pa]. unfold fs_wf, fs_layout, factory_parse in *.
    cbn [fs_gain fs_rates fs_pre fs_tol fs_smoothing fs_offset fs_lora_bw fs_lora_sf fs_gaussian fs_paramp] in *.
    destruct W as (H1 & H2 & L2 & H3 & L3 & H4 & L4 & H5 & H6 & H7 & H8 & H9 & H10).
    eapply rejects_bind; [apply accepts_int; solve [franges; lia]|].
    do 3 (eapply rejects_bind; [apply flat_uint'; [assumption|]; eapply Forall_impl; [|eassumption]; intros; solve [franges; lia]|]).
    do 5 (eapply rejects_bind; [apply accepts_uint; solve [franges; lia]|]).
    rewrite <- (app_nil_r (Zbits 16 pa)). eapply rejects_bind; [apply accepts_uint; solve [franges; lia]|].
    apply rejects_lift. exact E. }
  destruct mk as [g|e] eqn:E; [exact (A g eq_refl s r) | exact (B e eq_refl s r)].
Qed.
Lemma bits_needed_log2_up v : 1 <= v -> bits_needed v (Z.log2_up v).
Proof.
  intros H. unfold bits_needed. destruct (Z.eq_dec v 1) as [->|N]; [cbn; lia|].
  pose proof (Z.log2_up_spec v ltac:(lia)) as [A B]. pose proof (Z.log2_up_nonneg v).
  rewrite <- Z.sub_1_r in A. refine (conj _ (conj _ _)); [assumption | assumption | right; exact A].
Qed.
Lemma bits_needed_unique v n m : bits_needed v n -> bits_needed v m -> n = m.
Proof.
  assert (L : forall a b, bits_needed v a -> bits_needed v b -> a < b -> False).
  { intros a b (A1 & A2 & A3) (B1 & B2 & B3) L. destruct B3 as [->|B3]; [lia|].
    pose proof (Z.pow_le_mono_r 2 a (b - 1) ltac:(lia) ltac:(lia)). lia. }
  intros A B. destruct (Z.lt_trichotomy n m) as [C|[C|C]]; [destruct (L n m A B C) | exact C | destruct (L m n B A C)].
Qed.
Lemma log2_up_bound v : 2 <= v <= 255 -> 1 <= Z.log2_up v <= 8.
Proof.
  intros H. split; [change 1 with (Z.log2_up 2); apply Z.log2_up_le_mono; lia|].
  change 8 with (Z.log2_up 255). apply Z.log2_up_le_mono. lia.
Qed.
Lemma log2_up_shrinks v : 2 <= v -> Z.log2_up v - 1 < v.
Proof. intros H. pose proof (Z.log2_up_lt_lin v ltac:(lia)). lia. Qed.

Lemma mk_factory_ok g r p t s o b sf ga pa f : mk_factory g r p t s o b sf ga pa = Ok f ->
  2 <= s /\ f = mkFactory g r p t (Z.log2_up s - 1) o b sf ga pa /\ -128 <= g <= 127 /\ Forall long_ok r /\ Forall byte_ok p
  /\ 0 <= Z.log2_up s - 1 <= 255 /\ -126 <= o <= 125 /\ long_ok b /\ 6 <= sf <= 12 /\ 0 <= ga <= 3 /\ word_ok pa.
Proof.
  unfold mk_factory, smooth, rbind. destruct (Z.leb_spec s 0) as [L|L]; [discriminate|]. intros E.
  apply validated_inv in E as [E <-]. repeat (apply andb_prop in E as [E ?]).
  repeat match goal with H : forallb _ _ = true |- _ => apply forallb_range_inv in H end.
  assert (N : 2 <= s).
  { destruct (Z.eq_dec s 1) as [->|]; [|lia]. change (Z.log2_up 1) with 0 in *. unfold in_range in *. lia. }
  unfold byte_ok, word_ok, long_ok. refine (conj N (conj eq_refl _)). unfold in_range in *.
  repeat split; try assumption; lia.
Qed.
Lemma fs_construct f s : fs_wf (fs_set_smoothing f s) ->
  mk_factory (fs_gain f) (fs_rates f) (fs_pre f) (fs_tol f) s (fs_offset f) (fs_lora_bw f)
             (fs_lora_sf f) (fs_gaussian f) (fs_paramp f) =
  if s <=? 1 then Err ValueError else Ok (fs_set_smoothing f (Z.log2_up s - 1)).
Proof.
  destruct f as [g' rr p t sm o b sf ga pa]. unfold fs_wf, fs_set_smoothing, mk_factory, smooth.
  cbn [fs_gain fs_rates fs_pre fs_tol fs_smoothing fs_offset fs_lora_bw fs_lora_sf fs_gaussian fs_paramp].
  intros (H1 & H2 & L2 & H3 & L3 & H4 & L4 & H5 & H6 & H7 & H8 & H9 & H10).
  destruct (Z.leb_spec s 0) as [A|A]; destruct (Z.leb_spec s 1) as [B|B]; [reflexivity | lia | |]; unfold rbind.
  - apply validated_err. assert (s = 1) as -> by lia. change (Z.log2_up 1 - 1) with (-1).
    rewrite !andb_false_iff. do 5 left. right. reflexivity.
  - apply validated_ok. pose proof (log2_up_bound s ltac:(unfold byte_ok in *; lia)).
    rewrite !forallb_range by assumption. unfold in_range, byte_ok, word_ok, long_ok in *. lia.
Qed.
Lemma fs_small_rejected f : fs_wf f -> fs_smoothing f <= 1 -> rejects factory_parse (fs_layout f) ValueError.
Proof.
  intros W S ps r. rewrite (fs_reads f r W ps).
  pose proof (fs_construct f (fs_smoothing f)) as C. destruct f as [g' rr p t sm o b sf ga pa].
  cbn [fs_set_smoothing fs_gain fs_rates fs_pre fs_tol fs_smoothing fs_offset fs_lora_bw fs_lora_sf fs_gaussian fs_paramp] in *.
  rewrite (C W). destruct (Z.leb_spec sm 1); [reflexivity | lia].
Qed.
Lemma fs_large_changed f : fs_wf f -> 2 <= fs_smoothing f ->
  exists n, bits_needed (fs_smoothing f) n /\ n - 1 < fs_smoothing f
  /\ accepts factory_parse (fs_layout f) (fs_set_smoothing f (n - 1)).
Proof.
  intros W S. exists (Z.log2_up (fs_smoothing f)).
  refine (conj (bits_needed_log2_up _ _) (conj (log2_up_shrinks _ S) _)); [lia|].
  intros ps r. rewrite (fs_reads f r W ps).
  pose proof (fs_construct f (fs_smoothing f)) as C. destruct f as [g' rr p t sm o b sf ga pa].
  cbn [fs_set_smoothing fs_gain fs_rates fs_pre fs_tol fs_smoothing fs_offset fs_lora_bw fs_lora_sf fs_gaussian fs_paramp] in *.
  rewrite (C W). destruct (Z.leb_spec sm 1); [lia | reflexivity].
Qed.
Lemma fs_never_survives f : fs_wf f -> ~ accepts factory_parse (fs_layout f) f.
Proof.
  intros W A. destruct (Z_le_gt_dec (fs_smoothing f) 1) as [S|S].
  - specialize (A O []). rewrite (fs_small_rejected f W S O []) in A. discriminate.
  - destruct (fs_large_changed f W ltac:(lia)) as (n & _ & L & B). pose proof (accepts_inj _ _ _ _ A B) as E.
    rewrite E in L at 1. rewrite E in L. destruct f as [g' rr p t sm o b sf ga pa]. unfold fs_set_smoothing in E. cbn in E, L. injection E as E. lia.
Qed.
Lemma yield1_inv z l : yield1 z = Ok l -> 0 <= z <= 255 /\ l = [z].
Proof. unfold yield1. destruct (_ && _) eqn:E; intros H; [|discriminate]. injection H as <-. split; [lia | reflexivity]. Qed.
Lemma rapp_inv a b l : a +++ b = Ok l -> exists x y, a = Ok x /\ b = Ok y /\ l = x ++ y.
Proof. unfold rapp, rbind. destruct a; [|discriminate]. destruct b; [|discriminate]. intros [= <-]. eauto. Qed.
Lemma yields_inv l x : yields l = Ok x -> x = l /\ Forall byte_ok l.
Proof.
  revert x. induction l as [|z l IH]; intros x H; [injection H as <-; split; [reflexivity | constructor]|].
  unfold yields in *. cbn [map rconcat] in H. apply rapp_inv in H as (a & b & A & B & ->).
  apply yield1_inv in A as [A ->]. apply IH in B as [-> B]. split; [reflexivity | constructor; assumption].
Qed.
(** an accepted object is serializable exactly if no field needs a sign and
    the unchecked tolerances are bytes *)
Lemma fs_serializable g r p t s o b sf ga pa f : mk_factory g r p t s o b sf ga pa = Ok f ->
  length r = 9%nat -> length p = 6%nat -> length t = 3%nat ->
  ((exists l, factory_ser f = Ok l) <-> 0 <= g /\ 0 <= o /\ Forall byte_ok t).
Proof.
  intros E L1 L2 L3. apply mk_factory_ok in E as (_ & -> & H1 & H2 & H3 & H4 & H5 & H6 & H7 & H8 & H9). split.
  - intros [l E]. unfold factory_ser in E.
    cbn [fs_gain fs_rates fs_pre fs_tol fs_smoothing fs_offset fs_lora_bw fs_lora_sf fs_gaussian fs_paramp] in E.
    repeat match goal with H : _ +++ _ = Ok _ |- _ => apply rapp_inv in H as (? & ? & ? & ? & ->) end.
    repeat match goal with
    | H : yield1 _ = Ok _ |- _ => apply yield1_inv in H as [? ->]
    | H : yields _ = Ok _ |- _ => apply yields_inv in H as [-> ?] end.
    repeat split; try assumption; lia.
  - intros (G & O & T). match goal with |- exists l, factory_ser ?f = _ => assert (W : fs_wf f) end.
    { unfold fs_wf. cbn [fs_gain fs_rates fs_pre fs_tol fs_smoothing fs_offset fs_lora_bw fs_lora_sf fs_gaussian fs_paramp].
      unfold byte_ok, word_ok, long_ok in *. repeat split; try assumption; lia. }
    destruct (fs_emits _ W) as (l & E & _). eauto.
Qed.
Lemma fs_unserializable_error g r p t s o b sf ga pa f : mk_factory g r p t s o b sf ga pa = Ok f ->
  g < 0 -> factory_ser f = Err ValueError.
Proof.
  intros E L. apply mk_factory_ok in E as (_ & -> & _). unfold factory_ser. cbn [fs_gain].
  rewrite yield1_err by lia. reflexivity.
Qed.
Lemma fs_constructed_wf g r p t s o b sf ga pa f l : mk_factory g r p t s o b sf ga pa = Ok f ->
  length r = 9%nat -> length p = 6%nat -> length t = 3%nat -> factory_ser f = Ok l -> fs_wf f.
Proof.
  intros E L1 L2 L3 S. pose proof (proj1 (fs_serializable _ _ _ _ _ _ _ _ _ _ _ E L1 L2 L3) (ex_intro _ l S)) as (G & O & T).
  apply mk_factory_ok in E as (_ & -> & H1 & H2 & H3 & H4 & H5 & H6 & H7 & H8 & H9).
  unfold fs_wf. cbn [fs_gain fs_rates fs_pre fs_tol fs_smoothing fs_offset fs_lora_bw fs_lora_sf fs_gaussian fs_paramp].
  unfold byte_ok, word_ok, long_ok in *. repeat split; try assumption; lia.
Qed.

(** ** Keys *)
Lemma key_byte k p : 0 <= k -> Z.shiftr (Z.land k (Z.shiftl 255 (8 * Z.of_nat p))) (8 * Z.of_nat p) = (k / 256 ^ Z.of_nat p) mod 256.
Proof.
  intros K. rewrite Z.shiftr_land, Z.shiftr_shiftl_l by lia. rewrite Z.sub_diag. change (Z.shiftl 255 0) with (Z.ones 8).
  rewrite Z.land_ones by lia. rewrite Z.shiftr_div_pow2 by lia. rewrite Z.pow_mul_r by lia. reflexivity.
Qed.
Lemma le_digits k n a : 0 <= k ->
  le_value (map (fun p => (k / 256 ^ Z.of_nat p) mod 256) (seq a n)) = (k / 256 ^ Z.of_nat a) mod 256 ^ Z.of_nat n.
Proof.
  intros K. revert a. induction n as [|n IH]; intros a; cbn [seq map le_value].
  - change (256 ^ Z.of_nat 0) with 1. rewrite Z.mod_1_r. reflexivity.
  - rewrite IH. rewrite !Nat2Z.inj_succ, !Z.pow_succ_r by lia.
    rewrite (Z.mul_comm 256 (256 ^ Z.of_nat a)), <- Z.div_div by (try apply Z.pow_pos_nonneg; lia).
    rewrite (Z.rem_mul_r _ 256) by (try apply Z.pow_pos_nonneg; lia). reflexivity.
Qed.
Lemma key_le k : 0 <= k -> le_value (key_bytes k) = k mod 2 ^ 128.
Proof.
  intros K. unfold key_bytes. rewrite (map_ext _ _ (fun p => key_byte k p K)), le_digits by exact K.
  change (256 ^ Z.of_nat 0) with 1. rewrite Z.div_1_r. reflexivity.
Qed.
Lemma key_bytes_ok k : 0 <= k -> Forall is_byte (key_bytes k) /\ length (key_bytes k) = 16%nat.
Proof.
  intros K. unfold key_bytes. split; [|rewrite map_length; apply seq_length].
  apply Forall_forall. intros x I. apply in_map_iff in I as (p & <- & _). rewrite key_byte by exact K. unfold is_byte.
  pose proof (Z.mod_pos_bound (k / 256 ^ Z.of_nat p) 256). lia.
Qed.
Lemma key_construct k : (exists f, mk_key k = Ok f) <-> 0 <= k <= 2 ^ 128.
Proof.
  unfold mk_key, validated, in_range. change (2 ^ 128) with 340282366920938463463374607431768211456.
  destruct (_ && _) eqn:E; split; intros H; try (eexists; reflexivity); try lia. destruct H; discriminate.
Qed.
Lemma key_refused k : ~ 0 <= k <= 2 ^ 128 -> mk_key k = Err ValueError.
Proof.
  unfold mk_key. intros H. apply validated_err. change (2 ^ 128) with 340282366920938463463374607431768211456 in H.
  unfold in_range. lia.
Qed.
Lemma key_value k f : mk_key k = Ok f -> key_key f = k.
Proof. unfold mk_key. intros H. apply validated_inv in H as [_ <-]. reflexivity. Qed.
Lemma key_serialized rfu f : 0 <= key_key f -> key_ser rfu f = Ok (key_bytes (key_key f) ++ repeat 0 rfu).
Proof.
  intros K. unfold key_ser. destruct (key_bytes_ok _ K) as [B _]. rewrite (yields_ok _ B), yields_ok; [reflexivity|].
  apply Forall_forall. intros x I. apply repeat_spec in I as ->. unfold is_byte. lia.
Qed.
Lemma key_roundup rfu k f : mk_key k = Ok f ->
  exists l, key_ser rfu f = Ok (l ++ repeat 0 rfu) /\ length l = 16%nat /\ Forall is_byte l /\ le_value l = k mod 2 ^ 128.
Proof.
  intros E. pose proof (proj1 (key_construct k) (ex_intro _ f E)) as B. apply key_value in E as <-.
  exists (key_bytes (key_key f)). destruct B as [B _]. destruct (key_bytes_ok (key_key f) B) as [F L].
  exact (conj (key_serialized rfu f B) (conj L (conj F (key_le _ B)))).
Qed.
Lemma key_never_parsed rfu s : forall f s', key_parse rfu s <> Ok (f, s').
Proof.
  intros f s' H. unfold key_parse in H. apply bindp_inv in H as (? & ? & _ & H). apply bindp_inv in H as (? & ? & _ & H). discriminate.
Qed.
Lemma key_reject rfu l : Forall is_byte l -> length l = (16 + rfu)%nat -> rejects (key_parse (Z.of_nat rfu)) (bytes_bits l) ValueError.
Proof.
  intros F L. rewrite <- (firstn_skipn 16 l) in F |- *. apply Forall_app in F as [F1 F2]. unfold bytes_bits. rewrite flat_map_app.
  unfold key_parse. eapply rejects_bind; [apply accepts_bytes; [exact F1 | unfold zlen; rewrite firstn_length; lia]|].
  rewrite <- (app_nil_r (flat_map _ (skipn 16 l))). eapply rejects_bind; [apply accepts_bytes; [exact F2 | unfold zlen; rewrite skipn_length; lia]|].
  apply rejects_raise.
Qed.

(** ** PHY status *)
Lemma py_extend_same {A} (x : A) n l : zlen l = n -> py_extend x n l = l.
Proof. intros <-. unfold py_extend. rewrite Z.sub_diag. apply app_nil_r. Qed.
Lemma ps_items_emits ids noise : length ids = length noise -> Forall csi_wf ids -> Forall byte_ok noise ->
  emits (phy_status_items (length ids) ids noise) (flat_map ps_entry (combine ids noise)).
Proof.
  revert noise. induction ids as [|c ids IH]; intros [|x noise] L H1 H2; try discriminate; [apply emits_nil|].
  inversion H1; inversion H2; subst. cbn [length phy_status_items combine flat_map]. unfold ps_entry at 1. cbn [fst snd].
  rewrite <- app_assoc. apply emits_app; [apply csi_emits; assumption|]. apply emits_app; [femit|].
  apply IH; [injection L; auto | assumption | assumption].
Qed.
Definition ps_read : P (ChannelStatusIdentifier * Z) := do c <- csi_parse; do x <- read_uint 8; ret (c, x).
Lemma ps_items_accepts ids noise : length ids = length noise -> Forall csi_wf ids -> Forall byte_ok noise ->
  accepts (read_n (length ids) ps_read) (flat_map ps_entry (combine ids noise)) (combine ids noise).
Proof.
  revert noise. induction ids as [|c ids IH]; intros [|x noise] L H1 H2; try discriminate; [apply accepts_ret|].
  inversion H1; inversion H2; subst. cbn [length read_n combine flat_map].
  eapply accepts_bind.
  { unfold ps_read, ps_entry. cbn [fst snd]. eapply accepts_bind; [apply csi_accepts; assumption|].
    eapply accepts_bind_l; [apply accepts_uint; solve [franges; lia]|]. apply accepts_ret. }
  eapply accepts_bind_l; [apply IH; [injection L; auto | assumption | assumption]|]. apply accepts_ret.
Qed.
Lemma map_fst_combine {A B} (l : list A) (m : list B) : length l = length m -> map fst (combine l m) = l.
Proof. revert m. induction l; intros [|b m] H; try discriminate; [reflexivity|]. cbn. f_equal. apply IHl. injection H; auto. Qed.
Lemma map_snd_combine {A B} (l : list A) (m : list B) : length l = length m -> map snd (combine l m) = m.
Proof. revert m. induction l; intros [|b m] H; try discriminate; [reflexivity|]. cbn. f_equal. apply IHl. injection H; auto. Qed.
Lemma ps_codec : codec ps_wf ps_layout phy_status_ser phy_status_parse.
Proof.
  intros [u r t d n ids noise]. unfold ps_wf, ps_layout, phy_status_ser, phy_status_parse.
  cbn [ps_up ps_rx ps_tx ps_duty ps_len ps_ids ps_noise]. intros (H1 & H2 & H3 & H4 & H5 & L1 & L2 & H6 & H7).
  assert (L : length ids = length noise) by (unfold zlen in *; lia).
  assert (N : Z.to_nat n = length ids) by (unfold zlen in *; lia). rewrite N. split.
  - do 5 (apply emits_app; [femit|]). apply ps_items_emits; assumption.
  - do 5 facc1. rewrite N. eapply accepts_bind_l; [apply ps_items_accepts; assumption|].
    apply accepts_lift. rewrite map_fst_combine, map_snd_combine by exact L. unfold mk_phy_status.
    rewrite !py_extend_same by assumption. apply validated_ok. rewrite L1, L2. franges.
Qed.
Lemma ps_layout_length f : ps_wf f -> length (ps_layout f) = (8 * (15 + 3 * length (ps_ids f)))%nat.
Proof.
  intros (_ & _ & _ & _ & _ & L1 & L2 & _). unfold ps_layout. rewrite !app_length, !Zbits_length.
  assert (L : length (ps_ids f) = length (ps_noise f)) by (unfold zlen in *; lia). revert L. clear.
  revert f. intros [u r t d n ids noise]. cbn [ps_ids ps_noise]. revert noise.
  induction ids as [|c ids IH]; intros [|x noise] L; try discriminate; [reflexivity|].
  cbn [combine flat_map length]. rewrite app_length. unfold ps_entry at 1. cbn [fst snd].
  injection L as L. specialize (IH noise L). rewrite app_length, Zbits_length.
  assert (E : length (csi_layout c) = 16%nat) by (destruct c; unfold csi_layout, csi_bits; rewrite ?app_length, ?Zbits_length; reflexivity).
  lia.
Qed.
