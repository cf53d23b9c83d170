(** Lemmas for C103: what the text says. *)
From Coq Require Import String.
From Verif Require Import Bits MBase MCrc MCt MPhy MSp MFs MOperands MAlp MSerial MReport MCause MWhere SWhere LTotal LTags LWhere LWhere2.
From Coq Require Import Lia.
Close Scope string_scope.
Open Scope list_scope.
Open Scope Z_scope.

Definition after (s : stream) (s' : stream) : Prop := exists u, bits s = u ++ bits s' /\ pos s' = (pos s + List.length u)%nat.
Lemma done_after {A} (w : W A) s a s' : local w -> w s = Done a s' -> after s s'.
Proof. intros L E. specialize (L s). rewrite E in L. destruct L as (u & B & P & _). exists u. split; assumption. Qed.
Lemma field_after s s' a b v : after s s' -> field s' a b v -> field s a b v.
Proof.
  intros (u & B & P) ((H1 & H2 & H3) & V). split; [rewrite B, app_length; lia|]. rewrite <- V, B, skipn_app.
  rewrite skipn_all2 by lia. cbn [app]. replace (a - pos s - List.length u)%nat with (a - pos s')%nat by lia. reflexivity.
Qed.
(** ** Which values are refused, and how far into what is read *)
Definition names {A} (w : W A) (l : list (Class * nat)) : Prop := forall s e t p, w s = Failed e (Some t) p ->
  exists c k v, In (c, k) l /\ p = (pos s + k)%nat /\ (class_bits c <= k)%nat /\ field s (pos s + k - class_bits c) (pos s + k) v
  /\ ~ In v (class_values c) /\ t = (dec_str v ++ " is not a valid " ++ class_text c)%string.
Definition takes {A} (w : W A) (k : nat) : Prop := forall s a s', w s = Done a s' -> pos s' = (pos s + k)%nat.
Definition shift (k : nat) (l : list (Class * nat)) : list (Class * nat) := map (fun x => (fst x, (k + snd x)%nat)) l.
Lemma names_bind {A B} (w : W A) (f : A -> W B) k l l' : local w -> takes w k -> names w l -> (forall a, names (f a) l') -> names (wbind w f) (l ++ shift k l').
Proof.
  intros L T H K s e t p E. unfold wbind in E. destruct (w s) as [a s'|e' t' p'] eqn:X.
  - pose proof (done_after w s a s' L X) as Af. apply T in X. destruct (K a s' e t p E) as (c & j & v & I & P & B' & F & V & ->).
    exists c, (k + j)%nat, v. refine (conj _ (conj _ (conj _ (conj _ (conj V eq_refl))))); [| lia | lia |].
    + apply in_or_app. right. unfold shift. apply (in_map (fun x => (fst x, (k + snd x)%nat)) l' (c, j)). exact I.
    + apply (field_after s s'); [exact Af|]. rewrite X in F. replace (pos s + (k + j))%nat with (pos s + k + j)%nat by lia. exact F.
  - injection E as -> -> ->. destruct (H s e t p X) as (c & j & v & I & R). exists c, j, v. split; [apply in_or_app; left; exact I | exact R].
Qed.
Lemma names_end {A B} (w : W A) (f : A -> W B) l : local w -> names w l -> (forall a, names (f a) []) -> names (wbind w f) l.
Proof.
  intros L H K s e t p E. unfold wbind in E. destruct (w s) as [a s'|e' t' p'] eqn:X.
  - destruct (K a s' e t p E) as (c & j & v & [] & _).
  - injection E as -> -> ->. apply (H s e t p X).
Qed.
Lemma names_incl {A} (w : W A) l l' : names w l -> incl l l' -> names w l'.
Proof. intros H I s e t p E. destruct (H s e t p E) as (c & j & v & J & R). exists c, j, v. split; [apply I, J | exact R]. Qed.
Lemma names_ret {A} (a : A) : names (wret a) []. Proof. intros s e t p E. discriminate. Qed.
Lemma names_lift {A} (r : res A) : names (wlift r) []. Proof. intros s e t p E. unfold wlift in E. destruct r; discriminate. Qed.
Lemma names_read {A} (r : P A) : names (wread r) [].
Proof. intros s e t p E. unfold wread in E. destruct (r s) as [[? ?]|?]; discriminate. Qed.
Lemma names_none {A} e : names (@wraise A e None) []. Proof. intros s e' t p E. discriminate. Qed.
Lemma names_uint n : names (wuint n) []. Proof. apply names_read. Qed.
Lemma names_pad n : names (wpad n) []. Proof. apply names_read. Qed.
Lemma names_bool : names wbool []. Proof. apply names_read. Qed.
Lemma uint_field n s v s' : wuint n s = Done v s' -> pos s' = (pos s + n)%nat /\ after s s' /\ field s (pos s) (pos s + n) v.
Proof.
  unfold wuint, wread, read_uint. destruct (Nat.ltb (List.length (bits s)) n) eqn:L; [discriminate|]. apply Nat.ltb_ge in L. intros [= <- <-]. cbn [pos].
  split; [reflexivity|]. split.
  - exists (firstn n (bits s)). cbn [pos bits]. rewrite firstn_skipn, firstn_length. split; [reflexivity | lia].
  - split; [lia|]. replace (pos s + n - pos s)%nat with n by lia. rewrite Nat.sub_diag. reflexivity.
Qed.
Lemma names_class {A} (c : Class) (of : Z -> res A) : (forall v e, of v = Err e -> ~ In v (class_values c)) ->
  names (wenum (class_bits c) (class_text c) of) [(c, class_bits c)].
Proof.
  intros H s e t p E. unfold wenum, wbind in E. destruct (wuint (class_bits c) s) as [v s'|e' t' p'] eqn:X.
  - apply uint_field in X as (P & _ & F). destruct (of v) as [a|e'] eqn:Y; [discriminate|]. injection E as <- <- <-.
    exists c, (class_bits c), v. refine (conj (or_introl eq_refl) (conj P (conj (le_n _) (conj _ (conj (H v _ Y) eq_refl))))).
    replace (pos s + class_bits c - class_bits c)%nat with (pos s) by lia. exact F.
  - injection E as -> -> ->. destruct (names_uint _ _ _ _ _ X) as (? & ? & ? & [] & _).
Qed.
Ltac values := intros v e H I; cbn in I;
  repeat (destruct I as [<-|I]; [vm_compute in H; discriminate H|]); exact I.
Lemma nm_actcond : names (wenum 3 "ActionCondition" actcond_of) [(KActionCondition, 3%nat)]. Proof. apply (names_class KActionCondition). values. Qed.
Lemma nm_storage : names (wenum 2 "StorageClass" storage_of) [(KStorageClass, 2%nat)]. Proof. apply (names_class KStorageClass). values. Qed.
Lemma nm_comp : names (wenum 3 "ArithComparisonType" comp_of) [(KComparison, 3%nat)]. Proof. apply (names_class KComparison). values. Qed.
Lemma nm_qtype : names (wenum 3 "QueryType" qtype_of) [(KQueryType, 3%nat)]. Proof. apply (names_class KQueryType). values. Qed.
Lemma nm_idtype : names (wenum 2 "IdType" idtype_of) [(KIdType, 2%nat)]. Proof. apply (names_class KIdType). values. Qed.
Lemma nm_nls : names (wenum 4 "NlsMethod" nls_of) [(KNlsMethod, 4%nat)]. Proof. apply (names_class KNlsMethod). values. Qed.
Lemma nm_retry : names (wenum 3 "RetryMode" retry_of) [(KRetryMode, 3%nat)]. Proof. apply (names_class KRetryMode). values. Qed.
Lemma nm_resp : names (wenum 3 "ResponseMode" resp_of) [(KResponseMode, 3%nat)]. Proof. apply (names_class KResponseMode). values. Qed.
Lemma nm_band : names (wenum 3 "ChannelBand" band_of) [(KChannelBand, 3%nat)]. Proof. apply (names_class KChannelBand). values. Qed.
Lemma nm_class : names (wenum 2 "ChannelClass" class_of) [(KChannelClass, 2%nat)]. Proof. apply (names_class KChannelClass). values. Qed.
Lemma nm_coding : names (wenum 2 "ChannelCoding" coding_of) [(KChannelCoding, 2%nat)]. Proof. apply (names_class KChannelCoding). values. Qed.
Lemma nm_iftype : names (wenum 8 "InterfaceType" iftype_of) [(KInterfaceType, 8%nat)]. Proof. apply (names_class KInterfaceType). values. Qed.
#[export] Hint Resolve names_ret names_lift names_read names_none names_uint names_pad names_bool
  nm_actcond nm_storage nm_comp nm_qtype nm_idtype nm_nls nm_retry nm_resp nm_band nm_class nm_coding nm_iftype : names.

(** ** Widths *)
Lemma takes_uint n : takes (wuint n) n. Proof. intros s a s' E. apply uint_field in E. tauto. Qed.
Lemma takes_bool : takes wbool 1.
Proof. intros s a s'. unfold wbool, wread, read_bool. destruct (bits s) as [|x r]; [discriminate|]. intros [= _ <-]. reflexivity. Qed.
Lemma takes_pad n : takes (wpad n) n.
Proof.
  intros s a s'. unfold wpad, wread, read_pad, bindp, ret. destruct (read_uint n s) as [[v s1]|] eqn:X; [|discriminate]. intros [= _ <-].
  apply (takes_uint n s v s1). unfold wuint, wread. rewrite X. reflexivity.
Qed.
Lemma takes_int n : takes (wread (read_int n)) n.
Proof.
  intros s a s'. unfold wread, read_int, bindp, ret. destruct (read_uint n s) as [[v s1]|] eqn:X; [|discriminate]. intros [= _ <-].
  apply (takes_uint n s v s1). unfold wuint, wread. rewrite X. reflexivity.
Qed.
Lemma takes_enum {A} n c (of : Z -> res A) : takes (wenum n c of) n.
Proof.
  intros s v s'. unfold wenum, wbind. destruct (wuint n s) as [x s1|] eqn:X; [|discriminate]. destruct (of x); [|discriminate]. intros [= _ <-]. apply (takes_uint _ _ _ _ X).
Qed.
Lemma takes_ret {A} (a : A) : takes (wret a) 0. Proof. intros s b s' [= _ <-]. lia. Qed.
Lemma takes_lift {A} (r : res A) : takes (wlift r) 0. Proof. intros s b s'. unfold wlift. destruct r; [|discriminate]. intros [= _ <-]. lia. Qed.
Lemma takes_raise {A} e t : takes (@wraise A e t) 0. Proof. intros s b s' E. discriminate. Qed.
Lemma takes_bind {A B} (w : W A) (f : A -> W B) j k : takes w j -> (forall a, takes (f a) k) -> takes (wbind w f) (j + k).
Proof. intros H K s b s' E. unfold wbind in E. destruct (w s) as [a s1|] eqn:X; [|discriminate]. apply H in X. apply K in E. lia. Qed.
#[export] Hint Resolve takes_uint takes_bool takes_pad takes_int takes_enum takes_ret takes_lift takes_raise : takes.
Lemma takes_eq {A} (w : W A) j k : takes w j -> j = k -> takes w k. Proof. intros H <-. exact H. Qed.
Ltac takes := eapply takes_eq; [repeat first [solve [eauto with takes] | eapply takes_bind; [solve [eauto with takes] | intro]] | reflexivity].
Ltac mute1 :=
  match goal with
  | |- local _ => solve [locs]
  | |- forall _, _ => intro
  | |- names (wbind _ _) _ => apply names_end
  | |- names (match ?x with _ => _ end) _ => destruct x
  | |- names (if ?x then _ else _) _ => destruct x
  | |- names (let x := _ in _) _ => cbv zeta
  | |- _ => solve [auto with names]
  end.
Ltac mute := repeat mute1.
Ltac name1 := first
  [ solve [eauto with names]
  | eapply names_end; [solve [locs] | solve [eauto with names] | solve [mute]]
  | eapply names_bind; [solve [locs] | solve [eauto with takes] | solve [eauto with names] | intro] ].
Ltac name := eapply names_incl; [repeat name1 | intros ? ?; cbn [shift map app fst snd Nat.add In] in *; tauto].
Lemma length_mute : names length_w []. Proof. unfold length_w. mute. Qed.
#[export] Hint Resolve length_mute : names.
Lemma offset_mute : names offset_w []. Proof. unfold offset_w. mute. Qed.
#[export] Hint Resolve offset_mute : names.
Lemma data_mute : names data_w []. Proof. unfold data_w. mute. Qed.
Lemma dr_mute : names dr_w []. Proof. unfold dr_w. mute. Qed.
Lemma perm_mute : names perm_w []. Proof. unfold perm_w. mute. Qed.
Lemma perm_takes : takes perm_w 8. Proof. unfold perm_w. takes. Qed.
Lemma abp_mute : names abp_w []. Proof. unfold abp_w. mute. Qed.
Lemma otaa_mute : names otaa_w []. Proof. unfold otaa_w. mute. Qed.
Lemma ct_mute : names ct_w []. Proof. unfold ct_w. mute. Qed.
Lemma ct_takes : takes ct_w 8. Proof. unfold ct_w. takes. Qed.
#[export] Hint Resolve data_mute dr_mute perm_mute abp_mute otaa_mute ct_mute : names.
#[export] Hint Resolve perm_takes ct_takes : takes.
Lemma prop_names : names prop_w [(KActionCondition, 4%nat); (KStorageClass, 8%nat)]. Proof. unfold prop_w. name. Qed.
Lemma prop_takes : takes prop_w 8. Proof. unfold prop_w. takes. Qed.
#[export] Hint Resolve prop_names : names.
#[export] Hint Resolve prop_takes : takes.
Lemma fh_names : names fh_w [(KActionCondition, 12%nat); (KStorageClass, 16%nat)]. Proof. unfold fh_w. name. Qed.
#[export] Hint Resolve fh_names : names.
Lemma fho_names : names fho_w [(KActionCondition, 20%nat); (KStorageClass, 24%nat)]. Proof. unfold fho_w. name. Qed.
Lemma arith_names : names arith_w [(KComparison, 4%nat)]. Proof. unfold arith_w. name. Qed.
#[export] Hint Resolve fho_names arith_names : names.
Lemma query_names : names query_w [(KQueryType, 3%nat); (KComparison, 8%nat)].
Proof.
  unfold query_w. eapply names_incl; [eapply names_bind; [locs | eauto with takes | eauto with names | intro t]|].
  - eapply (names_bind _ _ 0); [destruct t; locs | destruct t; auto with takes | destruct t; auto with names | intros _].
    eapply names_bind; [locs | eauto with takes | eauto with names | intro m].
    eapply (names_bind _ _ 0); [destruct m; locs | destruct m; auto with takes | destruct m; auto with names | intros _].
    repeat name1.
  - intros ? ?; cbn [shift map app fst snd Nat.add In] in *; tauto.
Qed.
Lemma addr_names : names addr_w [(KIdType, 4%nat); (KNlsMethod, 8%nat)]. Proof. unfold addr_w. name. Qed.
Lemma qos_names : names qos_w [(KRetryMode, 5%nat); (KResponseMode, 8%nat)]. Proof. unfold qos_w. name. Qed.
Lemma qos_takes : takes qos_w 8. Proof. unfold qos_w. takes. Qed.
Lemma ch_names : names ch_w [(KChannelBand, 4%nat); (KChannelClass, 6%nat); (KChannelCoding, 8%nat)]. Proof. unfold ch_w. name. Qed.
Lemma ch_takes : takes ch_w 8. Proof. unfold ch_w. takes. Qed.
#[export] Hint Resolve query_names addr_names qos_names ch_names : names.
#[export] Hint Resolve qos_takes ch_takes : takes.
Lemma conf_names : names conf_w [(KRetryMode, 5%nat); (KResponseMode, 8%nat); (KIdType, 20%nat); (KNlsMethod, 24%nat)]. Proof. unfold conf_w. name. Qed.
Lemma cid_names : names cid_w [(KChannelBand, 4%nat); (KChannelClass, 6%nat); (KChannelCoding, 8%nat)]. Proof. unfold cid_w. name. Qed.
Lemma cid_takes : takes cid_w 24. Proof. unfold cid_w. takes. Qed.
#[export] Hint Resolve conf_names cid_names : names.
#[export] Hint Resolve cid_takes : takes.
Lemma status_names : names status_w [(KChannelBand, 4%nat); (KChannelClass, 6%nat); (KChannelCoding, 8%nat); (KIdType, 84%nat); (KNlsMethod, 88%nat)].
Proof. unfold status_w. name. Qed.
#[export] Hint Resolve status_names : names.

(** ** The first byte of an action *)
Lemma field_bit s b r : bits s = b :: r -> field s (pos s) (pos s + 1) (b2z b).
Proof. intro B. split; [rewrite B; cbn [List.length]; lia|]. replace (pos s + 1 - pos s)%nat with 1%nat by lia. rewrite Nat.sub_diag, B. destruct b; reflexivity. Qed.
Lemma bool_field s b s' : wbool s = Done b s' -> pos s' = (pos s + 1)%nat /\ after s s' /\ field s (pos s) (pos s + 1) (b2z b) /\ bits s = b :: bits s'.
Proof.
  unfold wbool, wread, read_bool. destruct (bits s) as [|x r] eqn:B; [discriminate|]. intros [= <- <-]. cbn [pos bits].
  refine (conj eq_refl (conj _ (conj (field_bit s x r B) eq_refl))). exists [x]. split; [exact B | reflexivity].
Qed.
Definition head (s : stream) (b7 b6 : bool) (op : Z) (s' : stream) : Prop :=
  pos s' = (pos s + 8)%nat /\ after s s' /\ field s (pos s) (pos s + 1) (b2z b7) /\ field s (pos s + 1) (pos s + 2) (b2z b6)
  /\ field s (pos s + 2) (pos s + 8) op /\ field s (pos s) (pos s + 8) (128 * b2z b7 + 64 * b2z b6 + op).
Lemma after_trans s t u : after s t -> after t u -> after s u.
Proof.
  intros (x & B & P) (y & B' & P'). exists (x ++ y). rewrite app_length. split; [rewrite B, B', app_assoc; reflexivity | lia].
Qed.
Lemma head_read s b7 s1 b6 s2 op s3 : wbool s = Done b7 s1 -> wbool s1 = Done b6 s2 -> wuint 6 s2 = Done op s3 -> head s b7 b6 op s3.
Proof.
  intros H1 H2 H3. pose proof H3 as H3'. apply bool_field in H1 as (P1 & A1 & F1 & B1). apply bool_field in H2 as (P2 & A2 & F2 & B2). apply uint_field in H3 as (P3 & A3 & F3).
  pose proof (after_trans s s1 s2 A1 A2) as A12.
  unfold head. split; [lia|]. split; [exact (after_trans s s2 s3 A12 A3)|]. split; [exact F1|].
  rewrite P1 in F2. replace (pos s + 1 + 1)%nat with (pos s + 2)%nat in F2 by lia. split; [exact (field_after s s1 _ _ _ A1 F2)|].
  replace (pos s2) with (pos s + 2)%nat in F3 by lia. replace (pos s + 2 + 6)%nat with (pos s + 8)%nat in F3 by lia. split; [exact (field_after s s2 _ _ _ A12 F3)|].
  destruct F3 as ((X1 & X2 & X3) & V). rewrite P2, P1 in *. replace (pos s + 8 - (pos s + 2))%nat with 6%nat in V by lia. replace (pos s + 2 - (pos s + 1 + 1))%nat with 0%nat in V by lia. cbn [skipn] in V.
  split; [rewrite B1, B2; cbn [List.length]; lia|]. replace (pos s + 8 - pos s)%nat with 8%nat by lia. rewrite Nat.sub_diag, B1, B2. cbn [skipn firstn].
  destruct (bits s2) as [|x0 [|x1 [|x2 [|x3 [|x4 [|x5 r]]]]]]; cbn [List.length] in X3; try lia. cbn [firstn] in *. rewrite <- V. clear.
  destruct b7, b6, x0, x1, x2, x3, x4, x5; reflexivity.
Qed.
