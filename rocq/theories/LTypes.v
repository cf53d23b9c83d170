(** Codec proofs for the structures of STypes.v. *)
From Coq Require Import ZifyBool ZifyNat.
From Verif Require Export LGood STypes.
Ltac Zify.zify_post_hook ::= Z.div_mod_to_equations.

Ltac zlit v := match v with Z0 => idtac | Zpos _ => idtac end.
Ltac pow2 :=
  repeat match goal with
  | |- context [2 ^ Z.of_nat ?n] =>
      let v := eval vm_compute in (2 ^ Z.of_nat n) in zlit v; change (2 ^ Z.of_nat n) with v
  | |- context [2 ^ (Z.of_nat ?n - 1)] =>
      let v := eval vm_compute in (2 ^ (Z.of_nat n - 1)) in zlit v; change (2 ^ (Z.of_nat n - 1)) with v
  | |- context [2 ^ (8 * Z.of_nat ?n)] =>
      let v := eval vm_compute in (2 ^ (8 * Z.of_nat n)) in zlit v; change (2 ^ (8 * Z.of_nat n)) with v
  | H : context [2 ^ Z.of_nat ?n] |- _ =>
      let v := eval vm_compute in (2 ^ Z.of_nat n) in zlit v; change (2 ^ Z.of_nat n) with v in H
  | H : context [2 ^ (Z.of_nat ?n - 1)] |- _ =>
      let v := eval vm_compute in (2 ^ (Z.of_nat n - 1)) in zlit v; change (2 ^ (Z.of_nat n - 1)) with v in H
  | H : context [2 ^ (8 * Z.of_nat ?n)] |- _ =>
      let v := eval vm_compute in (2 ^ (8 * Z.of_nat n)) in zlit v; change (2 ^ (8 * Z.of_nat n)) with v in H
  end.

(** numeric side conditions: unfold the range predicates, then [lia] *)
Ltac ranges := unfold u, is_byte, is_BYTE, validated, in0 in *; unfold in_range in *; pow2; try lia.

(** ** Code points *)
Lemma band_of_code b : band_of (band_code b) = Ok b. Proof. destruct b; reflexivity. Qed.
Lemma class_of_code b : class_of (class_code b) = Ok b. Proof. destruct b; reflexivity. Qed.
Lemma coding_of_code b : coding_of (coding_code b) = Ok b. Proof. destruct b; reflexivity. Qed.
Lemma idtype_of_code b : idtype_of (idtype_code b) = Ok b. Proof. destruct b; reflexivity. Qed.
Lemma nls_of_code b : nls_of (nls_code b) = Ok b. Proof. destruct b; reflexivity. Qed.
Lemma actcond_of_code b : actcond_of (actcond_code b) = Ok b. Proof. destruct b; reflexivity. Qed.
Lemma storage_of_code b : storage_of (storage_code b) = Ok b. Proof. destruct b; reflexivity. Qed.
Lemma resp_of_code b : resp_of (resp_code b) = Ok b. Proof. destruct b; reflexivity. Qed.
Lemma band_code_u b : 0 <= band_code b < 8. Proof. destruct b; cbn; lia. Qed.
Lemma class_code_u b : 0 <= class_code b < 4. Proof. destruct b; cbn; lia. Qed.
Lemma coding_code_u b : 0 <= coding_code b < 4. Proof. destruct b; cbn; lia. Qed.
Lemma idtype_code_u b : 0 <= idtype_code b < 4. Proof. destruct b; cbn; lia. Qed.
Lemma nls_code_u b : 0 <= nls_code b < 8. Proof. destruct b; cbn; lia. Qed.
Lemma actcond_code_u b : 0 <= actcond_code b < 4. Proof. destruct b; cbn; lia. Qed.
Lemma storage_code_u b : 0 <= storage_code b < 4. Proof. destruct b; cbn; lia. Qed.
Lemma resp_code_u b : 0 <= resp_code b < 8. Proof. destruct b; cbn; lia. Qed.
Ltac enum_inv :=
  repeat match goal with
  | |- (if ?v =? ?c then _ else _) = _ -> _ =>
      destruct (Z.eqb_spec v c); [intros [= <-]; subst; reflexivity|]
  end; intros [=].
Lemma band_inv v b : band_of v = Ok b -> v = band_code b.
Proof. unfold band_of. enum_inv. Qed.
Lemma class_inv v b : class_of v = Ok b -> v = class_code b.
Proof. unfold class_of. enum_inv. Qed.
Lemma coding_inv v b : coding_of v = Ok b -> v = coding_code b.
Proof. unfold coding_of. enum_inv. Qed.
Lemma idtype_inv v b : idtype_of v = Ok b -> v = idtype_code b.
Proof. unfold idtype_of. enum_inv. Qed.
Lemma nls_inv v b : nls_of v = Ok b -> v = nls_code b.
Proof. unfold nls_of. enum_inv. Qed.
Lemma actcond_inv v b : actcond_of v = Ok b -> v = actcond_code b.
Proof. unfold actcond_of. enum_inv. Qed.
Lemma storage_inv v b : storage_of v = Ok b -> v = storage_code b.
Proof. unfold storage_of. enum_inv. Qed.
Lemma resp_inv v b : resp_of v = Ok b -> v = resp_code b.
Proof. unfold resp_of. enum_inv. Qed.

(** ** Tactics for [accepts] *)
Ltac acc_num := first [ assumption
  | match goal with
    | |- context [band_code ?b] => pose proof (band_code_u b)
    | |- context [class_code ?b] => pose proof (class_code_u b)
    | |- context [coding_code ?b] => pose proof (coding_code_u b)
    | |- context [idtype_code ?b] => pose proof (idtype_code_u b)
    | |- context [nls_code ?b] => pose proof (nls_code_u b)
    | |- context [actcond_code ?b] => pose proof (actcond_code_u b)
    | |- context [storage_code ?b] => pose proof (storage_code_u b)
    | |- context [resp_code ?b] => pose proof (resp_code_u b)
    end; ranges; lia
  | solve [ranges; lia] ].
Ltac acc_leaf :=
  first [ apply accepts_uint; acc_num | apply accepts_int; acc_num | apply accepts_bool
        | apply accepts_pad; first [assumption | reflexivity | apply Zbits_length]
        | apply accepts_ret
        | apply accepts_lift; first [apply band_of_code | apply class_of_code | apply coding_of_code
             | apply idtype_of_code | apply nls_of_code | apply actcond_of_code | apply storage_of_code
             | apply resp_of_code | reflexivity]
        | apply accepts_lift; apply validated_ok; solve [ranges; lia] ].
(** one step of a [do] block against a right-nested layout *)
Ltac acc1 :=
  cbv beta;
  match goal with
  | |- accepts (bindp (lift _) _) _ _ => eapply accepts_bind0; [solve [acc_leaf | eauto]|]
  | |- accepts (bindp (ret _) _) _ _ => eapply accepts_bind0; [apply accepts_ret|]
  | |- accepts (bindp _ _) (_ ++ _) _ => eapply accepts_bind; [solve [acc_leaf | eauto]|]
  | |- accepts (bindp _ _) (_ :: _ :: _) _ => eapply (accepts_bind _ _ [_]); [solve [acc_leaf | eauto]|]
  | |- accepts (bindp _ _) _ _ => eapply accepts_bind_l; [solve [acc_leaf | eauto]|]
  | |- accepts _ _ _ => solve [acc_leaf | eauto]
  end.
Ltac acc := repeat acc1.

(** ** CT *)
Lemma ct_accepts c : ct_wf c -> accepts ct_parse (ct_layout c) c.
Proof.
  intros [He Hm]. destruct c as [e m]. cbn [ct_exp ct_mant] in *.
  unfold ct_parse, ct_layout. cbn [ct_exp ct_mant]. acc.
Qed.
Lemma ct_emits c : ct_wf c -> emits (ct_ser c) (ct_layout c).
Proof.
  intros [He Hm]. unfold ct_ser, ct_compressed, ct_layout.
  rewrite Z.lor_0_l, Z.shiftl_mul_pow2 by lia.
  apply emits_yield1'; [change (2 ^ 5) with 32; lia|].
  apply (Zbits_split 3 5). ranges.
Qed.
Lemma ct_codec : codec ct_wf ct_layout ct_ser ct_parse.
Proof. intros c H. split; [apply ct_emits | apply ct_accepts]; exact H. Qed.
Lemma mk_ct_iff e m : mk_ct e m = Ok (mkCT e m) <-> ct_wf (mkCT e m).
Proof. unfold mk_ct, ct_wf. rewrite validated_iff. cbn [ct_exp ct_mant]. ranges. Qed.
Lemma ct_canonical : canonical ct_wf ct_layout ct_parse.
Proof.
  intros s c s' H. unfold ct_parse in H.
  apply bindp_inv in H as (e & s1 & H1 & H). apply bindp_inv in H as (m & s2 & H2 & H).
  apply lift_inv in H as [H ->]. apply read_uint_inv in H1 as (Be & H1 & P1).
  apply read_uint_inv in H2 as (Bm & H2 & P2).
  apply validated_inv in H as [_ <-]. unfold ct_wf, ct_layout. cbn [ct_exp ct_mant].
  rewrite H1, H2, <- app_assoc. rewrite app_length, !Zbits_length. ranges.
  repeat split; lia.
Qed.

(** ** Channel header and id *)
Lemma ch_accepts r h : accepts ch_parse (ch_bits r h) h.
Proof.
  destruct h as [co cl ba]. unfold ch_parse, ch_bits. cbn [ch_coding ch_class ch_band].
  eapply accepts_bind; [apply (accepts_uint_raw 1 [r]); reflexivity|]. acc.
Qed.
Lemma ch_emits h : emits (ch_ser h) (ch_layout h).
Proof.
  destruct h as [co cl ba]; destruct co, cl, ba; apply emits_by_check; reflexivity.
Qed.
Lemma ch_codec : codec (fun _ => True) ch_layout ch_ser ch_parse.
Proof. intros h _. split; [apply ch_emits | apply ch_accepts]. Qed.
Lemma ch_inv s h s' : ch_parse s = Ok (h, s') ->
  exists r, bits s = ch_bits r h ++ bits s' /\ pos s' = (pos s + 8)%nat.
Proof.
  unfold ch_parse. intros H.
  apply bindp_inv in H as (r & s1 & H1 & H). apply bindp_inv in H as (v & s2 & H2 & H).
  apply bindp_inv in H as (ba & s3 & H3 & H). apply bindp_inv in H as (w & s4 & H4 & H).
  apply bindp_inv in H as (cl & s5 & H5 & H). apply bindp_inv in H as (x & s6 & H6 & H).
  apply bindp_inv in H as (co & s7 & H7 & H). apply ret_inv in H as [-> ->].
  apply lift_inv in H3 as [H3 ->]. apply lift_inv in H5 as [H5 ->]. apply lift_inv in H7 as [H7 ->].
  apply read_uint_inv in H1 as (_ & H1 & P1). apply read_uint_inv in H2 as (_ & H2 & P2).
  apply read_uint_inv in H4 as (_ & H4 & P4). apply read_uint_inv in H6 as (_ & H6 & P6).
  apply band_inv in H3. apply class_inv in H5. apply coding_inv in H7. subst.
  exists (Z.testbit r 0). unfold ch_bits. cbn [ch_band ch_class ch_coding].
  rewrite H1, H2, H4, H6. rewrite <- !app_assoc. split; [reflexivity | lia].
Qed.
Lemma cid_accepts r c : cid_wf c -> accepts cid_parse (cid_bits r c) c.
Proof.
  destruct c as [h i]. unfold cid_wf, cid_parse, cid_bits. cbn [cid_header cid_index]. intros H.
  eapply accepts_bind; [apply ch_accepts|]. acc.
Qed.
Lemma cid_emits c : cid_wf c -> emits (cid_ser c) (cid_layout c).
Proof.
  intros H. unfold cid_ser, cid_layout, cid_bits. apply emits_app; [apply ch_emits|].
  apply (emits_pack_be 2). unfold cid_wf in H. ranges.
Qed.
Lemma cid_codec : codec cid_wf cid_layout cid_ser cid_parse.
Proof. intros h H. split; [apply cid_emits | apply cid_accepts]; exact H. Qed.
Lemma cid_inv s c s' : cid_parse s = Ok (c, s') ->
  cid_wf c /\ exists r, bits s = cid_bits r c ++ bits s' /\ pos s' = (pos s + 24)%nat.
Proof.
  unfold cid_parse. intros H. apply bindp_inv in H as (h & s1 & H1 & H).
  apply bindp_inv in H as (i & s2 & H2 & H). apply lift_inv in H as [H ->].
  apply validated_inv in H as [Hi <-]. apply ch_inv in H1 as (r & H1 & P1).
  apply read_uint_inv in H2 as (_ & H2 & P2).
  split; [unfold cid_wf; cbn [cid_index]; ranges|]. exists r. unfold cid_bits.
  cbn [cid_header cid_index]. rewrite H1, H2, <- app_assoc. split; [reflexivity | lia].
Qed.

(** ** Channel status identifier *)
Lemma csi_accepts r c : csi_wf c -> accepts csi_parse (csi_bits r c) c.
Proof.
  destruct c as [b w i]. unfold csi_wf, csi_parse, csi_bits. cbn [csi_band csi_bandwidth csi_index].
  intros H. acc1. acc1.
  eapply accepts_bind; [apply (accepts_uint_raw 1 [_]); reflexivity|].
  eapply accepts_bind0; [apply (accepts_lift _ w); destruct w; reflexivity|].
  eapply accepts_bind; [apply (accepts_uint_raw 1 [r]); reflexivity|]. acc.
Qed.
Lemma land_mod k n v : n = 2 ^ k - 1 -> 0 <= k -> Z.land v n = v mod 2 ^ k.
Proof.
  intros -> Hk. replace (2 ^ k - 1) with (Z.ones k); [apply Z.land_ones; lia|].
  rewrite Z.ones_equiv. lia.
Qed.
Lemma Zbits_byte_split v : 0 <= v < 2048 -> forall hi, 0 <= hi ->
  Zbits 8 (hi * 8 + v / 256) ++ Zbits 8 (v mod 256) = Zbits 5 hi ++ Zbits 11 v.
Proof.
  intros H hi Hhi. rewrite (Zbits_split 5 3) by (pow2; lia).
  change 11%nat with (3 + 8)%nat. rewrite (Zbits_app 3 8 v), <- (Zbits_mod 8 v).
  rewrite <- app_assoc. reflexivity.
Qed.
Lemma csi_emits c : csi_wf c -> emits (csi_ser c) (csi_layout c).
Proof.
  intros H. destruct c as [b w i]. unfold csi_wf in H. cbn [csi_index] in H.
  unfold csi_ser, csi_layout, csi_bits. cbn [csi_band csi_bandwidth csi_index].
  rewrite (land_mod 3 7), (land_mod 8 255) by (try reflexivity; lia).
  rewrite Z.shiftr_div_pow2 by lia. change (2 ^ 8) with 256. change (2 ^ 3) with 8.
  rewrite (Z.mod_small (i / 256)) by lia.
  set (hi := Z.shiftl (band_value b) 5 + Z.shiftl (bandwidth_value w) 4 + Z.shiftl 0 3).
  assert (Hh : exists h, 0 <= h < 32 /\ hi = h * 8 /\
     Zbits 3 (band_code b) ++ [match w with kHz25 => true | kHz200 => false end] ++ [false] = Zbits 5 h).
  { exists (hi / 8). destruct b, w; cbv; repeat split; congruence. }
  destruct Hh as (h & Hh & -> & E).
  replace (Zbits 3 _ ++ _) with (Zbits 5 h ++ Zbits 11 i) by (rewrite <- E; rewrite <- !app_assoc; reflexivity).
  rewrite <- (Zbits_byte_split i) by lia.
  apply emits_app; apply emits_yield1; lia.
Qed.
Lemma csi_codec : codec csi_wf csi_layout csi_ser csi_parse.
Proof. intros c H. split; [apply csi_emits | apply csi_accepts]; exact H. Qed.
Lemma csi_inv s c s' : csi_parse s = Ok (c, s') ->
  csi_wf c /\ exists r, bits s = csi_bits r c ++ bits s' /\ pos s' = (pos s + 16)%nat.
Proof.
  unfold csi_parse. intros H.
  apply bindp_inv in H as (v & s1 & H1 & H). apply bindp_inv in H as (b & s2 & H2 & H).
  apply bindp_inv in H as (x & s3 & H3 & H). apply bindp_inv in H as (w & s4 & H4 & H).
  apply bindp_inv in H as (r & s5 & H5 & H). apply bindp_inv in H as (i & s6 & H6 & H).
  apply lift_inv in H as [H ->]. apply lift_inv in H2 as [H2 ->]. apply lift_inv in H4 as [H4 ->].
  apply validated_inv in H as [Hi <-].
  apply read_uint_inv in H1 as (_ & H1 & P1). apply read_uint_inv in H3 as (_ & H3 & P3).
  apply read_uint_inv in H5 as (_ & H5 & P5). apply read_uint_inv in H6 as (_ & H6 & P6).
  apply band_inv in H2. subst v. split; [unfold csi_wf; cbn [csi_index]; ranges|].
  exists (Z.testbit r 0). unfold csi_bits. cbn [csi_band csi_bandwidth csi_index].
  rewrite H1, H3, H5, H6, <- !app_assoc. split; [|lia]. do 2 f_equal.
  unfold bandwidth_of in H4. destruct (Z.eqb_spec x 1); [injection H4 as <-; subst x; reflexivity|].
  destruct (Z.eqb_spec x 0); [injection H4 as <-; subst x; reflexivity | discriminate].
Qed.

(** ** Sub band *)
Lemma read_be16_accepts v : 0 <= v < 65536 -> accepts read_be16 (Zbits 16 v) v.
Proof.
  intros H. unfold read_be16. change 16%nat with (8 * 2)%nat. rewrite <- (bytes_bits_be_bytes 2 v).
  eapply accepts_bind_l; [apply accepts_bytes; [apply be_bytes_is_byte | reflexivity]|].
  cbn [be_bytes]. change (2 ^ (8 * Z.of_nat 1)) with 256. change (2 ^ (8 * Z.of_nat 0)) with 1.
  replace (256 * _ + _) with v by lia. apply accepts_ret.
Qed.
Lemma read_be16_inv s v s' : read_be16 s = Ok (v, s') ->
  0 <= v < 65536 /\ bits s = Zbits 16 v ++ bits s' /\ pos s' = (pos s + 16)%nat.
Proof.
  unfold read_be16. intros H. apply bindp_inv in H as (l & s1 & H1 & H).
  apply read_bytes_inv in H1 as (Hl & Hb & H1 & P1); [|lia].
  destruct l as [|a [|b [|? ?]]]; try discriminate. apply ret_inv in H as [-> ->].
  inversion_clear Hb as [|? ? Ba Hb']. inversion_clear Hb' as [|? ? Bb _].
  unfold is_byte in *. split; [lia|]. rewrite H1, P1. rewrite bytes_bits_length. cbn [length].
  split; [|lia]. f_equal. unfold bytes_bits. cbn [flat_map]. rewrite app_nil_r.
  replace (256 * a + b) with (a * 2 ^ Z.of_nat 8 + b) by (pow2; lia).
  symmetry. apply (Zbits_split 8 8). pow2. lia.
Qed.
Lemma sb_accepts b : sb_wf b -> accepts sb_parse (sb_layout b) b.
Proof.
  destruct b as [st en ei cc du]. unfold sb_wf, sb_parse, sb_layout.
  cbn [sb_start sb_end sb_eirp sb_cca sb_duty]. intros (H1 & H2 & H3 & H4 & H5).
  eapply accepts_bind; [apply read_be16_accepts; lia|].
  eapply accepts_bind; [apply read_be16_accepts; lia|]. acc.
Qed.
Lemma sb_emits b : sb_wf b -> emits (sb_ser b) (sb_layout b).
Proof.
  intros (H1 & H2 & H3 & H4 & H5). unfold sb_ser, sb_layout.
  apply emits_app; [apply (emits_pack_be 2); ranges|].
  apply emits_app; [apply (emits_pack_be 2); ranges|].
  apply emits_app; [apply emits_pack_b; ranges|].
  apply emits_app; apply emits_yield1; lia.
Qed.
Lemma sb_codec : codec sb_wf sb_layout sb_ser sb_parse.
Proof. intros c H. split; [apply sb_emits | apply sb_accepts]; exact H. Qed.
Lemma sb_canonical : canonical sb_wf sb_layout sb_parse.
Proof.
  intros s x s' H. unfold sb_parse in H.
  apply bindp_inv in H as (st & s1 & H1 & H). apply bindp_inv in H as (en & s2 & H2 & H).
  apply bindp_inv in H as (ei & s3 & H3 & H). apply bindp_inv in H as (cc & s4 & H4 & H).
  apply bindp_inv in H as (du & s5 & H5 & H). apply lift_inv in H as [H ->].
  apply validated_inv in H as [Hi <-].
  apply read_be16_inv in H1 as (B1 & H1 & P1). apply read_be16_inv in H2 as (B2 & H2 & P2).
  apply read_int_inv in H3 as (B3 & H3 & P3); [|lia]. apply read_uint_inv in H4 as (B4 & H4 & P4).
  apply read_uint_inv in H5 as (B5 & H5 & P5).
  unfold sb_wf, sb_layout. cbn [sb_start sb_end sb_eirp sb_cca sb_duty].
  rewrite H1, H2, H3, H4, H5, <- !app_assoc. rewrite !app_length, !Zbits_length. ranges.
  repeat split; lia.
Qed.

(** ** Sub profile *)
Lemma sp_accepts p : sp_wf p -> accepts sp_parse (sp_layout p) p.
Proof.
  destruct p as [b c]. unfold sp_wf, sp_parse, sp_layout. cbn [sp_bitmap sp_period].
  intros [Hb Hc]. acc1. eapply accepts_bind_l; [apply ct_accepts; exact Hc|]. acc.
Qed.
Lemma sp_emits p : sp_wf p -> emits (sp_ser p) (sp_layout p).
Proof.
  intros [Hb Hc]. unfold sp_ser, sp_layout. apply emits_app; [apply emits_yield1; lia | apply ct_emits; exact Hc].
Qed.
Lemma sp_codec : codec sp_wf sp_layout sp_ser sp_parse.
Proof. intros c H. split; [apply sp_emits | apply sp_accepts]; exact H. Qed.
Lemma sp_canonical : canonical sp_wf sp_layout sp_parse.
Proof.
  intros s x s' H. unfold sp_parse in H.
  apply bindp_inv in H as (b & s1 & H1 & H). apply bindp_inv in H as (c & s2 & H2 & H).
  apply lift_inv in H as [H ->]. apply validated_inv in H as [Hi <-].
  apply read_uint_inv in H1 as (B1 & H1 & P1). apply ct_canonical in H2 as (B2 & H2 & P2).
  unfold sp_wf, sp_layout. cbn [sp_bitmap sp_period]. rewrite H1, H2, <- app_assoc.
  rewrite app_length, Zbits_length. ranges. repeat split; try lia; apply B2.
Qed.

(** ** Lists of parsers *)
Lemma read_n_accepts {A} (p : P A) (f : A -> list bool) l :
  Forall (fun x => accepts p (f x) x) l -> accepts (read_n (length l) p) (flat_map f l) l.
Proof.
  induction 1 as [|x l Hx Hl IH]; cbn [length read_n flat_map]; [apply accepts_ret|].
  eapply accepts_bind; [exact Hx|]. eapply accepts_bind_l; [exact IH | apply accepts_ret].
Qed.
Lemma read_n_inv {A} (p : P A) (R : A -> list bool -> Prop) :
  (forall s x s', p s = Ok (x, s') -> exists l, R x l /\ bits s = l ++ bits s' /\ pos s' = (pos s + length l)%nat) ->
  forall n s xs s', read_n n p s = Ok (xs, s') ->
  exists ls, Forall2 R xs ls /\ length xs = n /\ bits s = concat ls ++ bits s'
             /\ pos s' = (pos s + length (concat ls))%nat.
Proof.
  intros Hp. induction n as [|n IH]; intros s xs s' H; cbn [read_n] in H.
  - apply ret_inv in H as [-> ->]. exists []. cbn. repeat split; auto.
  - apply bindp_inv in H as (x & s1 & H1 & H). apply bindp_inv in H as (r & s2 & H2 & H).
    apply ret_inv in H as [-> ->]. apply Hp in H1 as (l & Rl & B1 & P1).
    apply IH in H2 as (ls & F & L & B2 & P2). exists (l :: ls). cbn [concat length].
    repeat split; [constructor; assumption | congruence | rewrite B1, B2, app_assoc; reflexivity |].
    rewrite app_length. lia.
Qed.

Lemma concat_fixed {A} k (xs : list A) (ls : list (list bool)) :
  Forall2 (fun _ l => length l = k) xs ls -> length (concat ls) = (k * length xs)%nat.
Proof.
  induction 1 as [|x l xs ls E F IH]; cbn [concat length]; [lia|]. rewrite app_length. lia.
Qed.

(** ** Access profile *)
Lemma ap_accepts a : ap_wf a -> length (ap_bands a) = 8%nat -> accepts ap_parse (ap_layout a) a.
Proof.
  destruct a as [h ps bs]. unfold ap_wf, ap_parse, ap_layout. cbn [ap_header ap_profiles ap_bands].
  intros (Lp & Lb & Fp & Fb) L8.
  eapply accepts_bind; [apply ch_accepts|].
  eapply accepts_bind; [rewrite <- Lp; apply read_n_accepts; eapply Forall_impl; [|exact Fp]; apply sp_accepts|].
  eapply accepts_bind_l; [rewrite <- L8; apply read_n_accepts; eapply Forall_impl; [|exact Fb]; apply sb_accepts|].
  apply accepts_lift. apply validated_ok. rewrite Lp, L8. reflexivity.
Qed.
Lemma ap_emits a : ap_wf a -> emits (ap_ser a) (ap_layout a).
Proof.
  intros (Lp & Lb & Fp & Fb). unfold ap_ser, ap_layout.
  apply emits_app; [apply ch_emits|]. apply emits_app; apply emits_rconcat.
  - eapply Forall_impl; [|exact Fp]. apply sp_emits.
  - eapply Forall_impl; [|exact Fb]. apply sb_emits.
Qed.
Lemma ap_parse_bands s a s' : ap_parse s = Ok (a, s') -> length (ap_bands a) = 8%nat /\ pos s' = (pos s + 520)%nat.
Proof.
  unfold ap_parse. intros H. apply bindp_inv in H as (h & s1 & H1 & H).
  apply bindp_inv in H as (ps & s2 & H2 & H). apply bindp_inv in H as (bs & s3 & H3 & H).
  apply lift_inv in H as [H ->]. apply validated_inv in H as [_ <-]. cbn [ap_bands].
  apply ch_inv in H1 as (r & _ & P1).
  apply (read_n_inv _ (fun x l => length l = 16%nat)) in H2.
  2:{ intros t x t' E. apply sp_canonical in E as (_ & E & P). exists (sp_layout x).
      split; [unfold sp_layout, ct_layout; rewrite !app_length, !Zbits_length; reflexivity | auto]. }
  apply (read_n_inv _ (fun x l => length l = 56%nat)) in H3.
  2:{ intros t x t' E. apply sb_canonical in E as (_ & E & P). exists (sb_layout x).
      split; [unfold sb_layout; rewrite !app_length, !Zbits_length; reflexivity | auto]. }
  destruct H2 as (l2 & F2 & L2 & _ & P2). destruct H3 as (l3 & F3 & L3 & _ & P3).
  apply concat_fixed in F2. apply concat_fixed in F3. split; lia.
Qed.

(** ** File system structures *)
Lemma perm_accepts p : accepts perm_parse (perm_layout p) p.
Proof.
  destruct p as [a b c d e f g h]. unfold perm_parse, perm_layout.
  cbn [fp_encrypted fp_executable fp_user_r fp_user_w fp_user_x fp_guest_r fp_guest_w fp_guest_x].
  acc.
Qed.
Lemma perm_emits p : emits (perm_ser p) (perm_layout p).
Proof.
  destruct p as [a b c d e f g h]. destruct a, b, c, d, e, f, g, h; apply emits_by_check; reflexivity.
Qed.
Lemma perm_codec : codec (fun _ => True) perm_layout perm_ser perm_parse.
Proof. intros h _. split; [apply perm_emits | apply perm_accepts]. Qed.
Lemma perm_inv s p s' : perm_parse s = Ok (p, s') ->
  bits s = perm_layout p ++ bits s' /\ pos s' = (pos s + 8)%nat.
Proof.
  unfold perm_parse. intros H.
  do 8 (apply bindp_inv in H as (? & ? & ?H & H)). apply ret_inv in H as [-> ->].
  repeat match goal with H : read_bool _ = _ |- _ => apply read_bool_inv in H as [? ?] end.
  unfold perm_layout. cbn [fp_encrypted fp_executable fp_user_r fp_user_w fp_user_x fp_guest_r fp_guest_w fp_guest_x].
  split; [|lia]. cbn [app] in *. congruence.
Qed.
Lemma prop_accepts r p : length r = 2%nat -> accepts prop_parse (prop_bits r p) p.
Proof.
  intros Hr. destruct p as [e c st]. unfold prop_parse, prop_bits. cbn [pr_enabled pr_cond pr_storage].
  acc1. acc1. acc1. eapply accepts_bind; [apply accepts_uint_raw; exact Hr|]. acc.
Qed.
Lemma prop_emits p : emits (prop_ser p) (prop_layout p).
Proof.
  destruct p as [a b c]. destruct a, b, c; apply emits_by_check; reflexivity.
Qed.
Lemma prop_codec : codec (fun _ => True) prop_layout prop_ser prop_parse.
Proof. intros h _. split; [apply prop_emits | apply prop_accepts; reflexivity]. Qed.
Lemma prop_inv s p s' : prop_parse s = Ok (p, s') ->
  exists r, length r = 2%nat /\ bits s = prop_bits r p ++ bits s' /\ pos s' = (pos s + 8)%nat.
Proof.
  unfold prop_parse. intros H.
  apply bindp_inv in H as (e & s1 & H1 & H). apply bindp_inv in H as (v & s2 & H2 & H).
  apply bindp_inv in H as (c & s3 & H3 & H). apply bindp_inv in H as (r & s4 & H4 & H).
  apply bindp_inv in H as (w & s5 & H5 & H). apply bindp_inv in H as (st & s6 & H6 & H).
  apply ret_inv in H as [-> ->]. apply lift_inv in H3 as [H3 ->]. apply lift_inv in H6 as [H6 ->].
  apply read_bool_inv in H1 as [H1 P1]. apply read_uint_inv in H2 as (_ & H2 & P2).
  apply read_uint_inv in H4 as (_ & H4 & P4). apply read_uint_inv in H5 as (_ & H5 & P5).
  apply actcond_inv in H3. apply storage_inv in H6. subst.
  exists (Zbits 2 r). split; [apply Zbits_length|]. unfold prop_bits.
  cbn [pr_enabled pr_cond pr_storage]. rewrite H1, H2, H4, H5, <- !app_assoc. split; [reflexivity | lia].
Qed.
Lemma fh_accepts r h : length r = 2%nat -> fh_wf h -> accepts fh_parse (fh_bits r h) h.
Proof.
  intros Hr. destruct h as [p q a i sz al]. unfold fh_wf, fh_parse, fh_bits.
  cbn [fh_perm fh_prop fh_alp_file fh_if_file fh_size fh_alloc]. intros (H1 & H2 & H3 & H4).
  eapply accepts_bind; [apply perm_accepts|].
  eapply accepts_bind; [apply prop_accepts; exact Hr|]. acc.
Qed.
Lemma fh_emits h : fh_wf h -> emits (fh_ser h) (fh_layout h).
Proof.
  intros (H1 & H2 & H3 & H4). unfold fh_ser, fh_layout, fh_bits.
  apply emits_app; [apply perm_emits|]. apply emits_app; [apply prop_emits|].
  apply emits_app; [apply emits_yield1; lia|]. apply emits_app; [apply emits_yield1; lia|].
  apply emits_app; apply (emits_pack_be 4); ranges.
Qed.
Lemma fh_codec : codec fh_wf fh_layout fh_ser fh_parse.
Proof. intros h H. split; [apply fh_emits | apply fh_accepts; [reflexivity|]]; exact H. Qed.
Lemma fh_inv s h s' : fh_parse s = Ok (h, s') ->
  fh_wf h /\ exists r, length r = 2%nat /\ bits s = fh_bits r h ++ bits s' /\ pos s' = (pos s + 96)%nat.
Proof.
  unfold fh_parse. intros H.
  apply bindp_inv in H as (p & s1 & H1 & H). apply bindp_inv in H as (q & s2 & H2 & H).
  apply bindp_inv in H as (a & s3 & H3 & H). apply bindp_inv in H as (i & s4 & H4 & H).
  apply bindp_inv in H as (sz & s5 & H5 & H). apply bindp_inv in H as (al & s6 & H6 & H).
  apply lift_inv in H as [H ->]. apply validated_inv in H as [Hi <-].
  apply perm_inv in H1 as [H1 P1]. apply prop_inv in H2 as (r & Hr & H2 & P2).
  apply read_uint_inv in H3 as (B3 & H3 & P3). apply read_uint_inv in H4 as (B4 & H4 & P4).
  apply read_uint_inv in H5 as (B5 & H5 & P5). apply read_uint_inv in H6 as (B6 & H6 & P6).
  split; [unfold fh_wf; cbn [fh_alp_file fh_if_file fh_size fh_alloc]; ranges|].
  exists r. split; [exact Hr|]. unfold fh_bits.
  cbn [fh_perm fh_prop fh_alp_file fh_if_file fh_size fh_alloc].
  rewrite H1, H2, H3, H4, H5, H6, <- !app_assoc. split; [reflexivity | lia].
Qed.
