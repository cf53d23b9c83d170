(** Link layer frames and parser. *)
From Coq Require Import ZifyBool ZifyNat.
From Verif Require Export LTight LTags MSerial SDll.
Ltac Zify.zify_post_hook ::= Z.div_mod_to_equations.

(** ** Parsing at a position known modulo 8 *)
Definition accepts_at {A} (k : nat) (p : P A) (l : list bool) (x : A) : Prop :=
  forall pos rest, (pos mod 8 = k mod 8)%nat -> p (St pos (l ++ rest)) = Ok (x, St (pos + length l) rest).
Definition rejects_at {A} (k : nat) (p : P A) (l : list bool) (e : exn) : Prop :=
  forall pos rest, (pos mod 8 = k mod 8)%nat -> p (St pos (l ++ rest)) = Err e.
Lemma at_bind {A B} k (p : P A) (f : A -> P B) la lb x y :
  accepts p la x -> accepts_at (k + length la) (f x) lb y -> accepts_at k (bindp p f) (la ++ lb) y.
Proof.
  intros Hp Hf ps rest E. rewrite <- app_assoc. rewrite (bindp_ok _ _ _ _ _ (Hp ps _)).
  rewrite Hf by lia. rewrite app_length. do 3 f_equal. lia.
Qed.
Lemma at_bind2 {A B} k (p : P A) (f : A -> P B) la lb x y :
  accepts_at k p la x -> accepts_at (k + length la) (f x) lb y -> accepts_at k (bindp p f) (la ++ lb) y.
Proof.
  intros Hp Hf ps rest E. rewrite <- app_assoc. rewrite (bindp_ok _ _ _ _ _ (Hp ps _ E)).
  rewrite Hf by lia. rewrite app_length. do 3 f_equal. lia.
Qed.
Lemma at_bind0 {A B} k (p : P A) (f : A -> P B) lb x y :
  accepts p [] x -> accepts_at k (f x) lb y -> accepts_at k (bindp p f) lb y.
Proof. intros Hp Hf. apply (at_bind k p f [] lb x y Hp). cbn [length]. rewrite Nat.add_0_r. exact Hf. Qed.
Lemma at_of {A} k (p : P A) l x : accepts p l x -> accepts_at k p l x.
Proof. intros H ps rest _. apply H. Qed.
Lemma at_aligned {A} (p : P A) l x : accepts_aligned p l x -> accepts_at 0 p l x.
Proof. intros H ps rest E. apply H. exact E. Qed.
Lemma at_mod {A} k k' (p : P A) l x : (k mod 8 = k' mod 8)%nat -> accepts_at k p l x -> accepts_at k' p l x.
Proof. intros E H ps rest E'. apply H. lia. Qed.
Lemma rat_bind {A B} k (p : P A) (f : A -> P B) la lb x e :
  accepts p la x -> rejects_at (k + length la) (f x) lb e -> rejects_at k (bindp p f) (la ++ lb) e.
Proof.
  intros Hp Hf ps rest E. rewrite <- app_assoc. rewrite (bindp_ok _ _ _ _ _ (Hp ps _)). apply Hf. lia.
Qed.
Lemma rat_bind2 {A B} k (p : P A) (f : A -> P B) la lb x e :
  accepts_at k p la x -> rejects_at (k + length la) (f x) lb e -> rejects_at k (bindp p f) (la ++ lb) e.
Proof.
  intros Hp Hf ps rest E. rewrite <- app_assoc. rewrite (bindp_ok _ _ _ _ _ (Hp ps _ E)). apply Hf. lia.
Qed.
Lemma rat_mod {A} k k' (p : P A) l e : (k mod 8 = k' mod 8)%nat -> rejects_at k p l e -> rejects_at k' p l e.
Proof. intros E H ps rest E'. apply H. lia. Qed.
Lemma accepts_optional {A} b (p : P A) l x : accepts p l x -> b = true -> accepts (optional b p) l (Some x).
Proof. intros H ->. unfold optional. eapply accepts_bind_l; [exact H | apply accepts_ret]. Qed.
Lemma accepts_optional_none {A} b (p : P A) : b = false -> accepts (optional b p) [] None.
Proof. intros ->. apply accepts_ret. Qed.
Lemma accepts_assert b : b = true -> accepts (assert_msg b) [] tt.
Proof. intros ->. apply accepts_ret. Qed.
Lemma accepts_opt_ct flag o : ct_announced flag o -> accepts (optional flag ct_parse) (ct_opt_bits o) o.
Proof.
  destruct o as [c|]; cbn [ct_announced ct_opt_bits].
  - intros [-> W]. apply accepts_optional; [|reflexivity]. apply ct_codec. exact W.
  - apply accepts_optional_none.
Qed.
Lemma ct_opt_len flag o : ct_announced flag o -> length (ct_opt_bits o) = if flag then 8%nat else 0%nat.
Proof.
  destruct o as [c|]; cbn [ct_announced ct_opt_bits].
  - intros [-> W]. unfold ct_layout. rewrite app_length, !Zbits_length. reflexivity.
  - intros ->. reflexivity.
Qed.

(** ** Headers *)
Lemma idtype_accepts t : accepts (do v <- read_uint 2; lift (idtype_of v)) (Zbits 2 (idtype_value t)) t.
Proof. intros ps rest. destruct t; reflexivity. Qed.
Lemma accepts_idtype {B} t (f : IdType -> P B) l y :
  accepts (f t) l y -> accepts (do v <- read_uint 2; do t <- lift (idtype_of v); f t) (Zbits 2 (idtype_value t) ++ l) y.
Proof.
  intros H. eapply accepts_bind; [apply accepts_uint; destruct t; cbn; lia|].
  eapply accepts_bind0; [apply accepts_lift; instantiate (1 := t); destruct t; reflexivity | exact H].
Qed.
Lemma accepts_cons {A B} (p : P A) (f : A -> P B) b l x y :
  accepts p [b] x -> accepts (f x) l y -> accepts (bindp p f) (b :: l) y.
Proof. apply (accepts_bind p f [b] l x y). Qed.
Lemma tpc_accepts rfu c : accepts tpc_parse
  [tc_start c; rfu; tc_tl c; tc_te c; tc_ack_req c; tc_ack_nv c; tc_ack_rec c; tc_agc c] c.
Proof. intros ps rest. destruct c. unfold tpc_parse, bindp, read_bool, ret. cbn. do 3 f_equal. lia. Qed.
Lemma npc_accepts c : nc_nls c = NLS_NONE ->
  accepts npc_parse ([nc_no_origin c; nc_hopping c] ++ Zbits 2 (idtype_value (nc_id_type c)) ++ Zbits 4 0) c.
Proof.
  intros N. destruct c as [a b t m]. cbn [nc_no_origin nc_hopping nc_id_type nc_nls] in *. subst m. unfold npc_parse. cbn [app].
  apply (accepts_cons _ _ _ _ a); [apply accepts_bool|]. apply (accepts_cons _ _ _ _ b); [apply accepts_bool|].
  apply accepts_idtype. apply (accepts_bind_l _ _ _ 0); [apply accepts_uint; cbn; lia|].
  eapply accepts_bind0; [apply accepts_lift; reflexivity|]. apply accepts_ret.
Qed.
Lemma fgc_accepts c : 0 <= fc_eirp c <= 63 ->
  accepts fgc_parse (Zbits 2 (idtype_value (fc_id_type c)) ++ Zbits 6 (fc_eirp c)) c.
Proof.
  intros H. destruct c as [t e]. cbn [fc_id_type fc_eirp] in *. unfold fgc_parse. apply accepts_idtype.
  eapply accepts_bind_l; [apply accepts_uint; cbn; lia|]. apply accepts_lift. unfold mk_fgc.
  apply validated_ok. unfold in_range. lia.
Qed.
Lemma accepts_bytes_in {A} n l rest0 (p : list Z -> P A) y : Forall is_byte l -> zlen l = n ->
  accepts (p l) rest0 y -> accepts (bindp (read_bytes n) p) (bytes_bits l ++ rest0) y.
Proof. intros F E H. eapply accepts_bind; [apply accepts_bytes; assumption | exact H]. Qed.

(** the number of bytes left for the application layer *)
Definition tp_head_bytes (f : TpFrame) : Z := zlen (tp_head false f) / 8.

Lemma tp_head_len rfu f : tp_wf f -> length (tp_head rfu f) = (24 + (if tc_agc (tf_control f) then 8 else 0)
  + (if tc_tl (tf_control f) then 8 else 0) + (if tc_te (tf_control f) then 8 else 0)
  + (if tc_ack_req (tf_control f) && tc_start (tf_control f) then 8 else 0))%nat.
Proof.
  intros (_ & _ & _ & _ & _ & _ & H1 & H2 & H3). unfold tp_head. rewrite !app_length, !Zbits_length.
  rewrite (ct_opt_len _ _ H1), (ct_opt_len _ _ H2), (ct_opt_len _ _ H3).
  destruct (tc_agc (tf_control f)); rewrite ?Zbits_length; cbn [length]; lia.
Qed.
(** everything up to the application layer, for any continuation *)
Lemma tp_at rfu f n alp : tp_wf f ->
  let m := n - zlen (tp_head rfu f) / 8 in
  accepts_at 0 (alp_parse m) alp (tf_cmd f) -> accepts_at 0 (tp_parse n) (tp_head rfu f ++ alp) f.
Proof.
  intros W m Ha. pose proof (tp_head_len rfu f W) as L.
  destruct W as (H1 & H2 & H3 & Bd & Bt & Ag & C1 & C2 & C3).
  unfold tp_head in *. destruct f as [c d t agc tl te tc ack cmd].
  cbn [tf_control tf_dialog tf_trans tf_agc tf_tl tf_te tf_tc tf_ack tf_cmd] in *. cbv zeta in *.
  set (h := length _) in L. assert (Hm : m = n - Z.of_nat h / 8) by reflexivity. clearbody m. clearbody h.
  unfold tp_parse. rewrite <- !app_assoc. subst ack.
  replace [tc_start c; rfu; tc_tl c; tc_te c; tc_ack_req c; false; false; tc_agc c] with
    [tc_start c; rfu; tc_tl c; tc_te c; tc_ack_req c; tc_ack_nv c; tc_ack_rec c; tc_agc c] by (rewrite H1, H2; reflexivity).
  eapply at_bind; [apply tpc_accepts|].
  eapply at_bind; [apply accepts_uint; unfold is_byte in *; cbn; lia|].
  eapply at_bind; [apply accepts_uint; unfold is_byte in *; cbn; lia|].
  apply (at_bind _ _ _ _ _ (if tc_agc c then Some agc else None)).
  { destruct (tc_agc c); [apply accepts_optional; [apply accepts_uint; cbn; lia | reflexivity] | apply accepts_optional_none; reflexivity]. }
  eapply at_bind; [apply accepts_opt_ct; exact C1|].
  eapply at_bind; [apply accepts_opt_ct; exact C2|].
  eapply at_bind; [apply accepts_opt_ct; exact C3|].
  rewrite H1, H2. eapply at_bind0; [apply accepts_ret|].
  eapply at_bind0; [apply accepts_assert; reflexivity|]. eapply at_bind0; [apply accepts_assert; reflexivity|].
  rewrite !Zbits_length, (ct_opt_len _ _ C1), (ct_opt_len _ _ C2), (ct_opt_len _ _ C3). cbv zeta.
  rewrite <- (app_nil_r alp). apply (at_bind2 _ _ _ _ _ cmd).
  - match goal with |- accepts_at ?k (alp_parse ?q) _ _ => replace q with m;
      [apply (at_mod 0 k); [|exact Ha]|] end.
    + destruct (tc_agc c); rewrite ?Zbits_length; destruct (tc_tl c), (tc_te c), (tc_ack_req c && tc_start c); reflexivity.
    + rewrite Hm, L. destruct (tc_agc c), (tc_tl c), (tc_te c), (tc_ack_req c && tc_start c); lia.
  - apply at_of. apply accepts_lift. unfold mk_tp_frame. unfold is_byte, in_range in *.
    destruct (tc_agc c); [|subst agc]; cbv zeta; apply validated_ok; lia.
Qed.
Lemma np_origin_len f : np_wf f -> length (bytes_bits (nf_origin f)) =
  (if nc_no_origin (nf_control f) then 0 else match nc_id_type (nf_control f) with VID => 16 | UID => 64 | _ => 0 end)%nat.
Proof.
  intros (_ & _ & _ & _ & O & _). rewrite bytes_bits_length. unfold zlen in *.
  destruct (nc_no_origin (nf_control f)); [rewrite O; reflexivity|].
  destruct (nc_id_type (nf_control f)); try contradiction; lia.
Qed.
Lemma np_head_len rfu f : np_wf f -> length (np_head rfu f) =
  (16 + length (bytes_bits (nf_origin f)) + length (tp_head rfu (nf_tp f)))%nat.
Proof. intros _. unfold np_head. rewrite !app_length, !Zbits_length. cbn [length]. lia. Qed.
Lemma np_at rfu f n alp : np_wf f ->
  let m := n - zlen (np_head rfu f) / 8 in
  accepts_at 0 (alp_parse m) alp (tf_cmd (nf_tp f)) -> accepts_at 0 (np_parse n) (np_head rfu f ++ alp) f.
Proof.
  intros W m Ha. pose proof (np_head_len rfu f W) as L. pose proof (np_origin_len f W) as Lo.
  destruct W as (H1 & H2 & Bc & Fo & O & Wt). pose proof (tp_head_len rfu _ Wt) as Lt.
  unfold np_head in *. destruct f as [c cl o t]. cbn [nf_control nf_class nf_origin nf_tp] in *. cbv zeta in *.
  set (h := length _) in L at 1. assert (Hm : m = n - Z.of_nat h / 8) by reflexivity. clearbody m. clearbody h.
  unfold np_parse. rewrite <- !app_assoc.
  match goal with |- accepts_at _ _ (?a ++ ?b ++ ?d ++ ?r) _ =>
    replace (a ++ b ++ d ++ r) with ((a ++ b ++ d) ++ r) by (rewrite <- !app_assoc; reflexivity) end.
  rewrite <- H1 at 1. eapply at_bind; [apply npc_accepts; exact H2|].
  eapply at_bind; [apply accepts_uint; unfold is_byte in *; cbn; lia|].
  rewrite H1, H2. eapply at_bind0; [apply accepts_assert; reflexivity|]. eapply at_bind0; [apply accepts_assert; reflexivity|].
  cbv zeta. apply (at_bind _ _ _ _ _ o).
  { destruct (nc_no_origin c); cbn [negb]; [subst o; apply accepts_ret|].
    destruct (nc_id_type c); try contradiction; apply accepts_bytes; assumption. }
  rewrite app_assoc. rewrite <- (app_nil_r (_ ++ alp)). eapply at_bind2.
  - eapply at_mod; [|apply tp_at; [exact Wt|]].
    + rewrite !app_length, !Zbits_length, Lo. cbn [length].
      destruct (nc_no_origin c), (nc_id_type c); reflexivity.
    + match goal with |- accepts_at _ (alp_parse ?q) _ _ => replace q with m; [exact Ha|] end.
      rewrite Hm, L, Lo. unfold zlen. rewrite Lt. destruct (nc_no_origin c); cbn [negb].
      * lia.
      * destruct (nc_id_type c); try contradiction; lia.
  - apply at_of. apply accepts_lift. unfold mk_np_frame. apply validated_ok. apply andb_true_iff. split.
    + unfold is_BYTE, is_byte in *. unfold in_range. lia.
    + apply forallb_forall. intros b Hb. rewrite Forall_forall in Fo. apply Fo in Hb. unfold is_BYTE, is_byte, in_range in *. lia.
Qed.

Definition signed8 (v : Z) : Z := if v <? 128 then v else v - 256.
Lemma accepts_signed v : is_byte v -> accepts (read_int 8) (Zbits 8 v) (signed8 v).
Proof.
  intros H. unfold is_byte, signed8 in *. destruct (v <? 128) eqn:E.
  - apply accepts_int; [lia | cbn; lia].
  - replace (Zbits 8 v) with (Zbits 8 (v - 256)).
    + apply accepts_int; [lia | cbn; lia].
    + rewrite <- (Zbits_mod 8 v), <- (Zbits_mod 8 (v - 256)). f_equal. change (2 ^ Z.of_nat 8) with 256. lia.
Qed.
Lemma fg_target_len f : fg_head_wf f -> length (bytes_bits (ff_target f)) =
  (match fc_id_type (ff_control f) with VID => 16 | UID => 64 | _ => 0 end)%nat.
Proof.
  intros (_ & _ & _ & _ & T & _). rewrite bytes_bits_length. unfold zlen in *.
  destruct (fc_id_type (ff_control f)); try (rewrite T; reflexivity); lia.
Qed.
Lemma fg_layout_len rfu f alp : length (fg_layout rfu f alp) =
  (40 + length (bytes_bits (ff_target f)) + length (np_head rfu (ff_np f)) + length alp)%nat.
Proof. unfold fg_layout. rewrite !app_length, !Zbits_length. lia. Qed.
Definition fg_made (f : FgFrame) : res FgFrame :=
  mk_fg_frame (signed8 (ff_length f)) (signed8 (ff_subnet f)) (ff_control f) (ff_target f) (ff_np f) (ff_crc f).
(** the application layer gets the number of bytes announced *)
Definition fg_room (rfu : bool) (f : FgFrame) : Z :=
  signed8 (ff_length f) - 4 - zlen (ff_target f) - zlen (np_head rfu (ff_np f)) / 8.
Lemma fg_at rfu f alp : fg_head_wf f -> accepts_at 0 (alp_parse (fg_room rfu f)) alp (fg_command f) ->
  match fg_made f with
  | Ok g => accepts_at 0 fg_parse (fg_layout rfu f alp) g
  | Err e => rejects_at 0 fg_parse (fg_layout rfu f alp) e
  end.
Proof.
  intros W Ha. pose proof (fg_target_len f W) as Lt. destruct W as (Bl & Bs & Be & Ft & T & Wn & Bc).
  unfold fg_layout, fg_made, fg_room, fg_command in *. destruct f as [l s c t np crc].
  cbn [ff_length ff_subnet ff_control ff_target ff_np ff_crc] in *.
  destruct (mk_fg_frame _ _ _ _ _ _) as [g|e] eqn:M;
  (match goal with |- _ _ _ (?a ++ ?b ++ ?d ++ ?h ++ ?r) _ =>
    replace (a ++ b ++ d ++ h ++ r) with (a ++ b ++ (d ++ h) ++ r) by (rewrite <- !app_assoc; reflexivity) end;
  unfold fg_parse;
  (first [eapply at_bind | eapply rat_bind]; [apply accepts_signed; exact Bl|]);
  (first [eapply at_bind | eapply rat_bind]; [apply accepts_signed; exact Bs|]);
  (first [eapply at_bind | eapply rat_bind]; [apply fgc_accepts; exact Be|]);
  cbv zeta;
  (first [apply (at_bind _ _ _ _ _ t) | apply (rat_bind _ _ _ _ _ t)];
   [destruct (fc_id_type c); first [subst t; apply accepts_ret | apply accepts_bytes; assumption]|]);
  rewrite (app_assoc (np_head rfu np));
  (first [apply (at_bind2 _ _ _ _ _ np) | apply (rat_bind2 _ _ _ _ _ np)];
   [eapply at_mod; [|apply np_at; [exact Wn|]];
    [rewrite !app_length, !Zbits_length, Lt; destruct (fc_id_type c); reflexivity
    |match goal with |- accepts_at _ (alp_parse ?q) _ _ => match type of Ha with accepts_at _ (alp_parse ?q') _ _ => replace q with q'; [exact Ha|] end end;
     unfold zlen in *; destruct (fc_id_type c); try (subst t; cbn [length]); lia]
   |])).
  - rewrite <- (app_nil_r (Zbits 16 crc)). eapply at_bind; [apply accepts_uint; cbn; lia|].
    apply at_of, accepts_lift. exact M.
  - rewrite <- (app_nil_r (Zbits 16 crc)). eapply rat_bind; [apply accepts_uint; cbn; lia|].
    intros ps rest _. rewrite M. reflexivity.
Qed.
Lemma fg_made_ok f : fg_head_wf f -> ff_length f <= 127 -> ff_subnet f <= 127 -> fg_made f = Ok f.
Proof.
  intros (Bl & Bs & Be & Ft & T & Wn & Bc) H1 H2. unfold fg_made, signed8, is_byte in *.
  replace (ff_length f <? 128) with true by lia. replace (ff_subnet f <? 128) with true by lia.
  destruct f as [l s c t np crc]. cbn [ff_length ff_subnet ff_control ff_target ff_np ff_crc] in *.
  unfold mk_fg_frame. apply validated_ok. rewrite !andb_true_iff. unfold is_BYTE. repeat split; try (unfold in_range; lia).
  apply forallb_forall. intros b Hb. rewrite Forall_forall in Ft. apply Ft in Hb. unfold is_byte, in_range in *. lia.
Qed.
Lemma fg_made_err f : 128 <= ff_length f <= 255 \/ 128 <= ff_subnet f <= 255 -> fg_made f = Err ValueError.
Proof.
  intros H. unfold fg_made, mk_fg_frame. apply validated_err. unfold is_BYTE, in_range, signed8.
  destruct H as [H|H]; [replace (ff_length f <? 128) with false by lia | replace (ff_subnet f <? 128) with false by lia];
  rewrite !andb_false_iff; lia.
Qed.
Lemma fg_room_ok rfu f alp : fg_head_wf f -> fg_length_ok rfu f alp -> ff_length f <= 127 ->
  fg_room rfu f = zlen alp / 8.
Proof.
  intros W L H. unfold fg_length_ok, zlen in L. rewrite fg_layout_len in L.
  pose proof (fg_target_len f W) as Lt. destruct W as (Bl & Bs & Be & Ft & T & Wn & Bc).
  rewrite bytes_bits_length in *.
  pose proof (np_head_len rfu _ Wn) as Ln. pose proof (np_origin_len _ Wn) as Lo.
  destruct Wn as (_ & _ & _ & _ & _ & Wt). pose proof (tp_head_len rfu _ Wt) as Ltp.
  unfold fg_room, signed8, is_byte, zlen in *. replace (ff_length f <? 128) with true by lia.
  assert (M : (length (np_head rfu (ff_np f)) mod 8 = 0)%nat).
  { rewrite Ln, Lo, Ltp. clear. set (c := tf_control _). set (d := nf_control _).
    destruct (nc_no_origin d), (nc_id_type d), (tc_agc c), (tc_tl c), (tc_te c), (tc_ack_req c && tc_start c); reflexivity. }
  lia.
Qed.
Lemma fg_accepts rfu f alp : fg_head_wf f -> fg_length_ok rfu f alp -> ff_length f <= 127 -> ff_subnet f <= 127 ->
  accepts_aligned (alp_parse (zlen alp / 8)) alp (fg_command f) ->
  accepts_aligned fg_parse (fg_layout rfu f alp) f.
Proof.
  intros W L H1 H2 Ha. pose proof (fg_at rfu f alp W) as K. rewrite (fg_made_ok f W H1 H2) in K.
  rewrite (fg_room_ok rfu f alp W L H1) in K. intros ps rest E. apply K; [|exact E]. apply at_aligned. exact Ha.
Qed.
Lemma fg_rejects_subnet rfu f alp : fg_head_wf f -> fg_length_ok rfu f alp -> ff_length f <= 127 -> 128 <= ff_subnet f ->
  accepts_aligned (alp_parse (zlen alp / 8)) alp (fg_command f) ->
  forall ps rest, (ps mod 8 = 0)%nat -> fg_parse (St ps (fg_layout rfu f alp ++ rest)) = Err ValueError.
Proof.
  intros W L H1 H2 Ha ps rest E. pose proof (fg_at rfu f alp W) as K.
  assert (B : is_byte (ff_subnet f)) by apply W. unfold is_byte in B.
  rewrite (fg_made_err f) in K by lia. rewrite (fg_room_ok rfu f alp W L H1) in K. apply K; [|exact E]. apply at_aligned. exact Ha.
Qed.
(** a negative number of bytes: nothing is read *)
Lemma alp_negative n : n < 0 -> accepts (alp_parse n) [] (mkCommand [] None false None true false None).
Proof.
  intros H ps rest. unfold alp_parse. replace (n =? 0) with false by lia.
  cbn [app bits length parse_actions]. replace (0 <? n) with false by lia. cbn. do 3 f_equal. lia.
Qed.
Lemma fg_rejects_length rfu f alp : fg_head_wf f -> 128 <= ff_length f ->
  forall ps rest, (ps mod 8 = 0)%nat -> fg_parse (St ps (fg_layout rfu f alp ++ rest)) = Err ValueError.
Proof.
  intros W H ps rest E. assert (B : is_byte (ff_length f)) by apply W. unfold is_byte in B.
  set (tl := alp ++ Zbits 16 (ff_crc f)).
  set (np := ff_np f). set (tp := nf_tp np).
  set (tp' := mkTpFrame (tf_control tp) (tf_dialog tp) (tf_trans tp) (tf_agc tp) (tf_tl tp) (tf_te tp) (tf_tc tp) (tf_ack tp)
                (mkCommand [] None false None true false None)).
  set (np' := mkNpFrame (nf_control np) (nf_class np) (nf_origin np) tp').
  set (f' := mkFgFrame (ff_length f) (ff_subnet f) (ff_control f) (ff_target f) np' (bits_val (firstn 16 tl))).
  assert (L16 : (16 <= length tl)%nat) by (unfold tl; rewrite app_length, Zbits_length; lia).
  assert (Lf : length (firstn 16 tl) = 16%nat) by (rewrite firstn_length; lia).
  assert (El : fg_layout rfu f alp = fg_layout rfu f' [] ++ skipn 16 tl).
  { unfold fg_layout. cbn [f' ff_length ff_subnet ff_control ff_target ff_np ff_crc]. change (np_head rfu np') with (np_head rfu (ff_np f)).
    rewrite Zbits_bits_val' by exact Lf. cbn [app]. rewrite <- !app_assoc, firstn_skipn. reflexivity. }
  assert (W' : fg_head_wf f').
  { destruct W as (Bl & Bs & Be & Ft & T & Wn & Bc). refine (conj Bl (conj Bs (conj Be (conj Ft (conj T (conj Wn _)))))).
    cbn [f' ff_crc]. pose proof (bits_val_bounds (firstn 16 tl)) as V. unfold zlen in V. rewrite Lf in V. change (2 ^ Z.of_nat 16) with 65536 in V. lia. }
  rewrite El, <- app_assoc. pose proof (fg_at rfu f' [] W') as K. rewrite (fg_made_err f') in K by (left; cbn [f' ff_length]; lia).
  apply K; [|exact E]. apply at_of. apply alp_negative. unfold fg_room, signed8. cbn [f' ff_length].
  replace (ff_length f <? 128) with false by lia. unfold zlen.
  match goal with |- _ - _ - _ - Z.of_nat ?a / 8 < 0 => generalize a; intros x end. lia.
Qed.
(** whatever the rest of the input *)
Lemma fg_parse_bytes s f s' : fg_parse s = Ok (f, s') -> 0 <= ff_length f <= 127 /\ 0 <= ff_subnet f <= 127
  /\ exists r, bits s = Zbits 8 (ff_length f) ++ Zbits 8 (ff_subnet f) ++ r.
Proof.
  unfold fg_parse. intros H. apply bindp_inv in H as (l & s1 & H1 & H). apply bindp_inv in H as (b & s2 & H2 & H).
  apply read_int_inv in H1 as (R1 & B1 & _); [|lia]. apply read_int_inv in H2 as (R2 & B2 & _); [|lia].
  apply bindp_inv in H as (c & s3 & H3 & H). apply bindp_inv in H as (t & s4 & H4 & H). apply bindp_inv in H as (n & s5 & H5 & H).
  apply bindp_inv in H as (crc & s6 & H6 & H). apply lift_inv in H as [H _]. unfold mk_fg_frame in H.
  apply validated_inv in H as [V <-]. cbn [ff_length ff_subnet]. rewrite !andb_true_iff in V. unfold is_BYTE, in_range in V.
  cbn in R1, R2. refine (conj _ (conj _ _)); [lia|lia|]. exists (bits s2). rewrite B1, B2. reflexivity.
Qed.

(** ** Serialization *)
Lemma rapp_err_r a e : exists e', a +++ Err e = Err e'.
Proof. destruct a; cbn; eauto. Qed.
Lemma rapp_assoc_err a b : (exists e, b = Err e) -> exists e, a +++ b = Err e.
Proof. intros [e ->]. apply rapp_err_r. Qed.
Lemma fg_ser_fails f : exists e, fg_ser f = Err e /\ (fg_head_wf f -> e = AttributeError).
Proof.
  unfold fg_ser, np_ser, npc_ser. cbn [rapp rbind].
  destruct (yield1 (ff_length f)) as [a|a] eqn:E1.
  2:{ exists a. split; [reflexivity|]. intros W. rewrite yield1_ok in E1 by apply W. discriminate. }
  destruct (yield1 (ff_subnet f)) as [b|b] eqn:E2.
  2:{ exists b. split; [reflexivity|]. intros W. rewrite yield1_ok in E2 by apply W. discriminate. }
  destruct (fgc_ser (ff_control f)) as [c|c] eqn:E3.
  2:{ exists c. split; [reflexivity|]. intros W. destruct W as (_ & _ & Be & _).
      unfold fgc_ser in E3. destruct (ff_control f) as [t e]. cbn [fc_id_type fc_eirp] in *.
      rewrite yield1_ok in E3; [discriminate|].
      destruct t; cbn [idtype_value]; match goal with |- context [Z.lor ?a ?b] => let v := eval vm_compute in (Z.lor a b) in change (Z.lor a b) with v end; lia. }
  destruct (yields (ff_target f)) as [d|d] eqn:E4.
  2:{ exists d. split; [reflexivity|]. intros W. rewrite yields_ok in E4 by apply W. discriminate. }
  exists AttributeError. split; reflexivity.
Qed.
Lemma bg_ser_fails f : exists e, bg_ser f = Err e /\ (bg_wf f -> e = TypeError).
Proof.
  unfold bg_ser.
  destruct (yield1 (bf_subnet f)) as [a|a] eqn:E1.
  2:{ exists a. split; [reflexivity|]. intros W. rewrite yield1_ok in E1 by apply W. discriminate. }
  destruct (bgc_ser (bf_control f)) as [c|c] eqn:E3.
  2:{ exists c. split; [reflexivity|]. intros W. destruct W as (_ & Be & _).
      unfold bgc_ser in E3. destruct (bf_control f) as [t e]. cbn [bc_id_type bc_tag] in *.
      rewrite yield1_ok in E3; [discriminate|].
      destruct t; cbn [idtype_value]; match goal with |- context [Z.lor ?a ?b] => let v := eval vm_compute in (Z.lor a b) in change (Z.lor a b) with v end; lia. }
  exists TypeError. split; reflexivity.
Qed.

(** ** Background frames *)
Lemma bg_accepts f : bg_wf f -> bf_subnet f <= 127 -> accepts bg_parse (bg_layout f) f.
Proof.
  intros (Bs & Bt & Bp & Bc) H. unfold bg_layout, bg_parse. destruct f as [s c p crc].
  cbn [bf_subnet bf_control bf_payload bf_crc] in *. rewrite (app_assoc (Zbits 2 _)).
  apply (accepts_bind _ _ _ _ s); [replace s with (signed8 s) at 2; [apply accepts_signed; exact Bs|]|].
  { unfold signed8. replace (s <? 128) with true by lia. reflexivity. }
  apply (accepts_bind _ _ _ _ c).
  { destruct c as [t g]. cbn [bc_id_type bc_tag] in *. unfold bgc_parse. apply accepts_idtype.
    eapply accepts_bind_l; [apply accepts_uint; cbn; lia|]. apply accepts_lift. apply validated_ok. unfold in_range. lia. }
  eapply accepts_bind; [apply accepts_uint; cbn; lia|]. eapply accepts_bind_l; [apply accepts_uint; cbn; lia|].
  apply accepts_lift. apply validated_ok. unfold is_BYTE, in_range, is_byte in *. lia.
Qed.
Lemma bg_rejects f : bg_wf f -> 128 <= bf_subnet f -> rejects bg_parse (bg_layout f) ValueError.
Proof.
  intros (Bs & Bt & Bp & Bc) H. unfold bg_layout, bg_parse. destruct f as [s c p crc].
  cbn [bf_subnet bf_control bf_payload bf_crc] in *. rewrite (app_assoc (Zbits 2 _)).
  eapply rejects_bind; [apply accepts_signed; exact Bs|].
  apply (rejects_bind _ _ _ _ c).
  { destruct c as [t g]. cbn [bc_id_type bc_tag] in *. unfold bgc_parse. apply accepts_idtype.
    eapply accepts_bind_l; [apply accepts_uint; cbn; lia|]. apply accepts_lift. apply validated_ok. unfold in_range. lia. }
  eapply rejects_bind; [apply accepts_uint; cbn; lia|]. rewrite <- (app_nil_r (Zbits 16 crc)).
  eapply rejects_bind; [apply accepts_uint; cbn; lia|].
  apply rejects_lift. apply validated_err. unfold is_BYTE, in_range, is_byte, signed8 in *.
  replace (s <? 128) with false by lia. lia.
Qed.

(** ** Totality *)
Definition dll_exn (e : exn) : bool := alp_exn e || match e with AssertMsg => true | _ => false end.
Lemma dll_alp e : alp_exn e = true -> dll_exn e = true.
Proof. unfold dll_exn. intros ->. reflexivity. Qed.
Lemma good_ct' k : good k (fun n => n = 8%nat) dll_exn ct_parse.
Proof. eapply good_weaken; [apply good_ct | reflexivity | auto | apply dll_alp]. Qed.
Lemma good_optional {A} k E b (p : P A) : good k (fun n => n = 8%nat) E p -> good k (fun n => n = 0%nat \/ n = 8%nat) E (optional b p).
Proof.
  intros H. unfold optional. destruct b; [|apply good_ret; auto].
  eapply good_bind; [exact H|]. intros a n ->. apply good_ret. lia.
Qed.
Lemma good_assert k (E : exn -> bool) b : E AssertMsg = true -> good k (fun n => n = 0%nat) E (assert_msg b).
Proof. intros H. destruct b; [apply good_ret; reflexivity | apply good_raise; exact H]. Qed.
Lemma good_tpc k : good k (fun n => n = 8%nat) dll_exn tpc_parse.
Proof. unfold tpc_parse. good_all. Qed.
Lemma good_alp' k n : (k mod 8 = 0)%nat -> good k whole dll_exn (alp_parse n).
Proof.
  intros H. eapply good_weaken; [apply (good_alp n) | rewrite H; reflexivity | intros m [M _]; exact M | apply dll_alp].
Qed.
Lemma good_tp k n : (k mod 8 = 0)%nat -> good k whole1 dll_exn (tp_parse n).
Proof.
  intros Hk. unfold tp_parse. using_good good_tpc. subst. good1. good1. cbv zeta.
  eapply good_bind; [apply good_optional, good_uint; [reflexivity | reflexivity] | intros agc n1 Hn1].
  eapply good_bind; [apply good_optional, good_ct' | intros tl n2 Hn2].
  eapply good_bind; [apply good_optional, good_ct' | intros te n3 Hn3].
  eapply good_bind; [apply good_optional, good_ct' | intros tc n4 Hn4].
  eapply good_bind; [instantiate (1 := fun n => n = 0%nat \/ n = 16%nat)|intros ack n5 Hn5].
  { destruct (tc_ack_nv a); [|apply good_ret; auto]. good1. good1.
    eapply good_bind; [apply good_assert; reflexivity|]. intros ? ? ->.
    eapply good_bind; [apply good_assert; reflexivity|]. intros ? ? ->. apply good_ret. lia. }
  eapply good_bind; [apply good_assert; reflexivity|]. intros ? ? ->.
  eapply good_bind; [apply good_assert; reflexivity|]. intros ? ? ->.
  eapply good_bind; [cbv beta in *; apply good_alp'; lia|]. intros cmd n6 Hn6. good_all.
Qed.
Lemma good_np k n : (k mod 8 = 0)%nat -> good k whole1 dll_exn (np_parse n).
Proof.
  intros Hk. unfold np_parse.
  eapply good_bind; [instantiate (1 := fun n => n = 8%nat); unfold npc_parse; good_all | intros c n1 ->].
  good1. cbv zeta.
  eapply good_bind; [apply good_assert; reflexivity|]. intros ? ? ->.
  eapply good_bind; [apply good_assert; reflexivity|]. intros ? ? ->.
  eapply good_bind; [instantiate (1 := fun n => n = 0%nat \/ n = 16%nat \/ n = 64%nat)|intros o n5 H5].
  { destruct (negb (nc_no_origin c)); [|apply good_ret; auto].
    destruct (nc_id_type c); first [apply good_raise; reflexivity | apply good_bytes; [reflexivity | lia]]. }
  eapply good_bind; [cbv beta in *; apply good_tp; lia|]. intros t n6 H6. good_all; unfold whole, whole1 in *; try lia.
Qed.
Lemma good_fg k : (k mod 8 = 0)%nat -> good k whole1 dll_exn fg_parse.
Proof.
  intros Hk. unfold fg_parse. good1. good1.
  eapply good_bind; [instantiate (1 := fun n => n = 8%nat); unfold fgc_parse; good_all | intros c n1 ->]. cbv zeta.
  eapply good_bind; [instantiate (1 := fun n => n = 0%nat \/ n = 16%nat \/ n = 64%nat)|intros o n5 H5].
  { destruct (fc_id_type c); first [apply good_ret; auto | apply good_bytes; [reflexivity | lia]]. }
  eapply good_bind; [cbv beta in *; apply good_np; lia|]. intros t n6 H6. good_all; unfold whole, whole1 in *; try lia.
Qed.
Lemma good_bg k : good k (fun n => n = 48%nat) dll_exn bg_parse.
Proof. unfold bg_parse, bgc_parse. good_all. Qed.
Lemma good_dframe fg k : (k mod 8 = 0)%nat -> good k whole1 dll_exn (dframe_parse fg).
Proof.
  intros Hk. unfold dframe_parse. destruct fg.
  - eapply good_bind; [apply good_fg; exact Hk|]. intros f n H. apply good_ret. unfold whole1 in *. lia.
  - eapply good_bind; [apply good_bg|]. intros f n ->. apply good_ret. unfold whole1. lia.
Qed.

(** ** The parser object *)
Lemma tight_dframe fg : tight (dframe_parse fg).
Proof. unfold dframe_parse. destruct fg; tight_all. Qed.
Lemma dframe_total fg bs :
  match dframe_parse fg (stream_of bs) with
  | Ok (f, s') => exists k, (0 < k <= length bs)%nat /\ s' = St (8 * k) (bytes_bits (skipn k bs))
        /\ forall more, dframe_parse fg (stream_of (firstn k bs ++ more)) = Ok (f, St (8 * k) (bytes_bits more))
  | Err e => dll_exn e = true /\ (is_eof e = false -> forall more, dframe_parse fg (stream_of (bs ++ more)) = Err e)
  end.
Proof.
  pose proof (good_dframe fg 0 eq_refl (stream_of bs) eq_refl) as G. destruct (dframe_parse fg (stream_of bs)) as [[f s']|e] eqn:E0.
  - destruct G as (d & Hb & Hp & Q & _). exists (length d / 8)%nat. unfold whole1 in Q.
    destruct (skip_bits bs d (bits s') Hb) as [K1 K2]; [lia|].
    cbn [pos stream_of] in Hp.
    assert (Es : s' = St (8 * (length d / 8)) (bytes_bits (skipn (length d / 8) bs))).
    { destruct s' as [ps bt]. cbn [pos bits] in *. rewrite K1. f_equal. lia. }
    refine (conj _ (conj Es _)); [lia|]. intros more.
    destruct (tight_dframe fg _ _ _ E0) as (c & Bc & Pc & X). specialize (X (bytes_bits more)).
    assert (Ec : c = bytes_bits (firstn (length d / 8) bs)).
    { apply (app_inv_tail (bits s')). rewrite <- Bc. rewrite Es. cbn [bits stream_of].
      rewrite <- bytes_bits_app, firstn_skipn. reflexivity. }
    unfold stream_of in *. rewrite bytes_bits_app, <- Ec. cbn [pos] in X. rewrite X, Es. reflexivity.
  - destruct G as [G1 G2]. split; [exact G1|]. intros N more. specialize (G2 N (bytes_bits more)).
    unfold ext, stream_of in *. cbn [pos bits] in G2. rewrite bytes_bits_app. exact G2.
Qed.
Lemma frame_app fg bs f more : is_frame fg bs f ->
  dframe_parse fg (stream_of (bs ++ more)) = Ok (f, St (8 * length bs) (bytes_bits more)).
Proof.
  intros H. pose proof (dframe_total fg bs) as T. unfold is_frame in H. rewrite H in T.
  destruct T as (k & Hk & Es & X). injection Es as E1 E2. assert (k = length bs) by lia. subst k.
  rewrite firstn_all in X. apply X.
Qed.
Lemma frame_nonempty fg bs f : is_frame fg bs f -> bs <> [].
Proof. intros H ->. destruct fg; discriminate H. Qed.

Lemma dll_parse_cases lib fg buf chunk :
  let data := buf ++ chunk in
  match dll_parse lib fg buf chunk with
  | (rest, Ok (Some f, parsed, lft)) => exists bs, data = bs ++ rest /\ is_frame fg bs f
        /\ parsed = 8 * zlen bs /\ lft = 8 * zlen rest
  | (rest, Ok (None, parsed, lft)) => rest = data /\ parsed = 0 /\ lft = 8 * zlen data
        /\ forall k f, ~ is_frame fg (firstn k data) f
  | (rest, Err e) => rest = data /\ e <> ReadError /\ dll_exn e = true /\ forall k f, ~ is_frame fg (firstn k data) f
  end.
Proof.
  intros data. unfold dll_parse. fold data.
  assert (Np : forall e, dframe_parse fg (stream_of data) = Err e -> forall k f, ~ is_frame fg (firstn k data) f).
  { intros e E k f H. apply (frame_app fg _ _ (skipn k data)) in H. rewrite firstn_skipn in H. congruence. }
  destruct data as [|b data'] eqn:Ed.
  - cbn [zlen length]. refine (conj eq_refl (conj eq_refl (conj eq_refl _))). intros k f H. destruct k, fg; discriminate H.
  - rewrite <- Ed in *. clear b data' Ed. pose proof (dframe_total fg data) as T.
    destruct (dframe_parse fg (stream_of data)) as [[f s']|e].
    + destruct T as (k & Hk & -> & X). cbn [pos]. replace (8 * k / 8)%nat with k by lia. exists (firstn k data).
      assert (Lk : length (firstn k data) = k) by (rewrite firstn_length; lia).
      refine (conj _ (conj _ (conj _ eq_refl))).
      * symmetry. apply firstn_skipn.
      * unfold is_frame. rewrite Lk. specialize (X []). rewrite app_nil_r in X. exact X.
      * unfold zlen. rewrite Lk. lia.
    + destruct T as [T1 T2]. destruct (is_read_error lib e) eqn:R.
      * refine (conj eq_refl (conj eq_refl (conj eq_refl _))). apply (Np e eq_refl).
      * refine (conj eq_refl (conj _ (conj T1 (Np e eq_refl)))). intros ->. destruct lib; discriminate R.
Qed.
Lemma fun_eof lib e : is_read_error lib e = false -> lib = true \/ e <> BoolEof -> is_eof e = false.
Proof. destruct e, lib; cbn; intros H [L|L]; congruence. Qed.
Lemma dll_parse_sticky lib fg buf chunk rest e : dll_parse lib fg buf chunk = (rest, Err e) ->
  lib = true \/ e <> BoolEof -> forall more, dll_parse lib fg rest more = (rest ++ more, Err e).
Proof.
  intros H L more. unfold dll_parse in H. destruct (buf ++ chunk) as [|b d] eqn:Ed; [discriminate|].
  rewrite <- Ed in *. pose proof (dframe_total fg (buf ++ chunk)) as T.
  destruct (dframe_parse fg (stream_of (buf ++ chunk))) as [[f s']|e0]; [discriminate|].
  destruct (is_read_error lib e0) eqn:R; [discriminate|]. injection H as <- ->.
  destruct T as [_ T]. specialize (T (fun_eof lib e R L) more). unfold dll_parse.
  rewrite Ed in *. cbn [app] in *. rewrite T, R. reflexivity.
Qed.
Lemma dll_drain lib fg items tail : Forall (fun x => is_frame fg (fst x) (snd x)) items ->
  forall items1 items2, items = items1 ++ items2 ->
  exists rs, dll_calls lib fg (concat (map fst items) ++ tail) (repeat [] (length items1)) =
             (concat (map fst items2) ++ tail, rs) /\ map Ok (map (fun x => Some (snd x)) items1) = map (fun r => match r with Ok (o, _, _) => Ok o | Err e => Err e end) rs.
Proof.
  intros F items1. revert items F. induction items1 as [|[bs f] items1 IH]; intros items F items2 ->; cbn [length repeat dll_calls app].
  - exists []. split; reflexivity.
  - cbn [map concat fst snd app] in *. inversion F as [|? ? H F']; subst. cbn [fst snd] in H.
    destruct (IH _ F' items2 eq_refl) as (rs & E1 & E2).
    unfold dll_parse. rewrite app_nil_r, <- app_assoc.
    destruct (bs ++ _) as [|b d] eqn:Ed; [apply app_eq_nil in Ed as [-> _]; destruct (frame_nonempty _ _ _ H eq_refl)|].
    rewrite <- Ed, (frame_app fg bs f _ H). cbn [pos]. replace (8 * length bs / 8)%nat with (length bs) by lia.
    rewrite skipn_app, skipn_all, Nat.sub_diag. cbn [app skipn]. rewrite E1.
    eexists. split; [reflexivity|]. cbn [map]. rewrite E2. reflexivity.
Qed.
Lemma dll_accounting lib fg chunks : forall buf,
  let '(buf', rs) := dll_calls lib fg buf chunks in
  length rs = length chunks /\
  exists bss, buf ++ concat chunks = concat bss ++ buf' /\ Forall2 (is_frame fg) bss (delivered rs).
Proof.
  induction chunks as [|c cs IH]; intros buf; cbn [dll_calls].
  - split; [reflexivity|]. exists []. split; [apply app_nil_r | constructor].
  - pose proof (dll_parse_cases lib fg buf c) as K. destruct (dll_parse lib fg buf c) as [buf1 r].
    specialize (IH buf1). destruct (dll_calls lib fg buf1 cs) as [buf2 rs]. destruct IH as [L (bss & E & F)].
    split; [cbn [length]; lia|]. cbn [concat delivered flat_map]. fold (delivered rs).
    destruct r as [[[[f|] p] q]|e]; cbv zeta in K.
    + destruct K as (bs & E1 & Fr & _). exists (bs :: bss). split; [|constructor; assumption].
      rewrite app_assoc, E1, <- app_assoc, E. cbn [concat]. apply app_assoc.
    + destruct K as (-> & _). exists bss. split; [|exact F]. rewrite app_assoc. exact E.
    + destruct K as (-> & _). exists bss. split; [|exact F]. rewrite app_assoc. exact E.
Qed.
Lemma dll_poisoned lib fg buf chunk rest e chunks : dll_parse lib fg buf chunk = (rest, Err e) ->
  lib = true \/ e <> BoolEof ->
  dll_calls lib fg rest chunks = (rest ++ concat chunks, repeat (Err e) (length chunks)).
Proof.
  intros H L. assert (K := dll_parse_sticky _ _ _ _ _ _ H L). clear H. revert rest K.
  induction chunks as [|c cs IH]; intros rest K; cbn [dll_calls concat length repeat].
  - rewrite app_nil_r. reflexivity.
  - rewrite K. rewrite (IH (rest ++ c)).
    + rewrite <- app_assoc. reflexivity.
    + intros more. rewrite <- app_assoc. unfold dll_parse in *. specialize (K (c ++ more)). rewrite <- app_assoc.
      exact K.
Qed.
Lemma dll_delivers lib fg buf chunk bs rest f : buf ++ chunk = bs ++ rest -> is_frame fg bs f ->
  dll_parse lib fg buf chunk = (rest, Ok (Some f, 8 * zlen bs, 8 * zlen rest)).
Proof.
  intros E H. pose proof (dll_drain lib fg [(bs, f)] rest) as D. unfold dll_parse. rewrite E.
  destruct (bs ++ rest) as [|b d] eqn:Ed; [apply app_eq_nil in Ed as [-> _]; destruct (frame_nonempty _ _ _ H eq_refl)|].
  rewrite <- Ed, (frame_app fg bs f _ H). cbn [pos]. replace (8 * length bs / 8)%nat with (length bs) by lia.
  rewrite skipn_app, skipn_all, Nat.sub_diag. cbn [app skipn]. do 4 f_equal. unfold zlen. lia.
Qed.
(** a well-formed frame in memory *)
Lemma layout_is_frame rfu f alp bs : fg_head_wf f -> fg_length_ok rfu f alp -> ff_length f <= 127 -> ff_subnet f <= 127 ->
  accepts_aligned (alp_parse (zlen alp / 8)) alp (fg_command f) ->
  bytes_bits bs = fg_layout rfu f alp -> is_frame true bs (DFg f) /\ zlen bs = ff_length f + 1.
Proof.
  intros W L H1 H2 Ha E. pose proof (fg_accepts rfu f alp W L H1 H2 Ha) as K.
  unfold fg_length_ok in L. rewrite <- E in L. unfold zlen in *. rewrite bytes_bits_length in L.
  split; [|lia]. unfold is_frame, dframe_parse, stream_of, bindp. rewrite E. rewrite <- (app_nil_r (fg_layout rfu f alp)).
  rewrite K by reflexivity. rewrite <- E, bytes_bits_length. reflexivity.
Qed.
(** ** Property-level statements *)
Lemma fg_command_accepts rfu f c : fg_head_wf f -> command_wf c -> fg_command f = command_received c ->
  fg_length_ok rfu f (command_layout c) -> ff_length f <= 127 -> ff_subnet f <= 127 ->
  accepts_aligned fg_parse (fg_layout rfu f (command_layout c)) f.
Proof.
  intros W Wc E L H1 H2. apply fg_accepts; try assumption. rewrite E. apply (command_accepts c Wc).
Qed.
Lemma fg_command_rejects rfu f c : fg_head_wf f -> command_wf c -> fg_command f = command_received c ->
  fg_length_ok rfu f (command_layout c) -> 128 <= ff_length f \/ 128 <= ff_subnet f ->
  forall ps rest, (ps mod 8 = 0)%nat ->
  fg_parse (St ps (fg_layout rfu f (command_layout c) ++ rest)) = Err ValueError.
Proof.
  intros W Wc E L H ps rest M. destruct (Z.le_gt_cases 128 (ff_length f)) as [G|G].
  - apply fg_rejects_length; assumption.
  - apply fg_rejects_subnet; try assumption; try lia. rewrite E. apply (command_accepts c Wc).
Qed.
Lemma dll_one_call lib fg buf chunk :
  let data := buf ++ chunk in
  match dll_parse lib fg buf chunk with
  | (rest, Ok (Some f, parsed, lft)) => exists bs, data = bs ++ rest /\ is_frame fg bs f
        /\ parsed = 8 * zlen bs /\ lft = 8 * zlen rest
  | (rest, Ok (None, parsed, lft)) => rest = data /\ parsed = 0 /\ lft = 8 * zlen data
        /\ forall k f, ~ is_frame fg (firstn k data) f
  | (rest, Err e) => rest = data /\ e <> ReadError /\ forall k f, ~ is_frame fg (firstn k data) f
  end.
Proof.
  intros data. pose proof (dll_parse_cases lib fg buf chunk) as K. cbv zeta in K. fold data in K.
  destruct (dll_parse lib fg buf chunk) as [rest [[[[f|] p] q]|e]]; tauto.
Qed.
Lemma dll_drained lib fg items tail : Forall (fun x => is_frame fg (fst x) (snd x)) items ->
  exists rs, dll_calls lib fg (concat (map fst items) ++ tail) (repeat [] (length items)) = (tail, rs)
             /\ delivered rs = map snd items.
Proof.
  intros F. destruct (dll_drain lib fg items tail F items [] (eq_sym (app_nil_r _))) as (rs & E1 & E2).
  exists rs. split; [exact E1|]. clear E1 F. revert rs E2. induction items as [|[bs f] items IH]; intros [|r rs] E2; try discriminate; [reflexivity|].
  cbn [map] in E2. injection E2 as E3 E2. cbn [delivered flat_map map snd]. fold (delivered rs). rewrite (IH rs E2).
  destruct r as [[[o p] q]|e]; [|discriminate]. injection E3 as <-. reflexivity.
Qed.
