(** Lemmas for C76. *)
From Coq Require Import String Ascii Permutation Sorted Lia ZifyBool.
From Verif Require Import MBase MPhy MSp MFs MOperands MSysFiles MSchema MEnum SEnum.
Open Scope string_scope.
Open Scope Z_scope.

(** ** The tables *)
Fixpoint distinct_s (l : list string) : bool :=
  match l with [] => true | x :: r => negb (existsb (String.eqb x) r) && distinct_s r end.
Fixpoint distinct_z (l : list Z) : bool :=
  match l with [] => true | x :: r => negb (existsb (Z.eqb x) r) && distinct_z r end.
Lemma distinct_s_ok l : distinct_s l = true -> NoDup l.
Proof.
  induction l as [|x r IH]; cbn; intros H; [constructor|]. apply andb_prop in H as [N D].
  constructor; [|auto]. intros I. apply Bool.negb_true_iff in N.
  assert (existsb (String.eqb x) r = true) as E by (apply existsb_exists; exists x; split; [exact I|apply String.eqb_refl]).
  congruence.
Qed.
Lemma distinct_z_ok l : distinct_z l = true -> NoDup l.
Proof.
  induction l as [|x r IH]; cbn; intros H; [constructor|]. apply andb_prop in H as [N D].
  constructor; [|auto]. intros I. apply Bool.negb_true_iff in N.
  assert (existsb (Z.eqb x) r = true) as E by (apply existsb_exists; exists x; split; [exact I|apply Z.eqb_refl]).
  congruence.
Qed.
Lemma tables_unambiguous e : In e library_enums -> unambiguous e.
Proof.
  intros I.
  assert (forallb (fun e => distinct_s (map fst (e_members e)) && distinct_z (map snd (e_members e))) library_enums = true)
    as H by (vm_compute; reflexivity).
  rewrite forallb_forall in H. specialize (H e I). apply andb_prop in H as [A B].
  split; [apply distinct_s_ok|apply distinct_z_ok]; assumption.
Qed.
Lemma classes_distinct : NoDup (map e_class library_enums).
Proof. apply distinct_s_ok. vm_compute. reflexivity. Qed.

(** ** Lookups *)
Lemma by_name l n v : NoDup (map fst l) -> In (n, v) l ->
  find (fun m : string * Z => String.eqb (fst m) n) l = Some (n, v).
Proof.
  induction l as [|[a b] r IH]; cbn; intros D I; [destruct I|]. apply NoDup_cons_iff in D as [N D].
  destruct I as [E|I].
  - injection E as -> ->. rewrite String.eqb_refl. reflexivity.
  - destruct (String.eqb_spec a n) as [->|_].
    + destruct N. apply in_map_iff. exists (n, v). auto.
    + auto.
Qed.
Lemma by_value l n v : NoDup (map snd l) -> In (n, v) l ->
  find (fun m : string * Z => snd m =? v) l = Some (n, v).
Proof.
  induction l as [|[a b] r IH]; cbn; intros D I; [destruct I|]. apply NoDup_cons_iff in D as [N D].
  destruct I as [E|I].
  - injection E as -> ->. rewrite Z.eqb_refl. reflexivity.
  - destruct (Z.eqb_spec b v) as [->|_].
    + destruct N. apply in_map_iff. exists (n, v). auto.
    + auto.
Qed.
Lemma getitem_some e n v : In e library_enums -> declares e n v -> enum_getitem e n = Ok (VMember (e_class e) v).
Proof. intros I D. destruct (tables_unambiguous _ I) as [A _]. unfold enum_getitem. rewrite (by_name _ _ _ A D). reflexivity. Qed.
Lemma getitem_none e n : (~ exists v, declares e n v) -> enum_getitem e n = Err KeyError.
Proof.
  intros N. unfold enum_getitem.
  destruct (find _ (e_members e)) as [[a b]|] eqn:F; [|reflexivity].
  apply find_some in F as [I E]. cbn in E. apply String.eqb_eq in E as ->. destruct N. exists b. exact I.
Qed.
Lemma getitem e n : In e library_enums ->
  (exists v, declares e n v /\ enum_getitem e n = Ok (VMember (e_class e) v)) \/
  (~ exists v, declares e n v) /\ enum_getitem e n = Err KeyError.
Proof.
  intros I. destruct (find (fun m => String.eqb (fst m) n) (e_members e)) as [[a b]|] eqn:F.
  - left. pose proof F as G. apply find_some in G as [J E]. cbn in E. apply String.eqb_eq in E as ->.
    exists b. split; [exact J|]. unfold enum_getitem. rewrite F. reflexivity.
  - right. assert (~ exists v, declares e n v) as N.
    { intros [v D]. pose proof (find_none _ _ F _ D) as E. cbn in E. rewrite String.eqb_refl in E. discriminate. }
    split; [exact N|apply getitem_none, N].
Qed.
Lemma call e v :
  (exists n, declares e n v) /\ enum_call e v = Ok (VMember (e_class e) v) \/
  (~ exists n, declares e n v) /\ enum_call e v = Err ValueError.
Proof.
  unfold enum_call. destruct (existsb _ _) eqn:X.
  - left. apply existsb_exists in X as ([n w] & I & E). cbn in E. apply Z.eqb_eq in E as ->. split; [exists n; exact I|reflexivity].
  - right. split; [|reflexivity]. intros [n D].
    assert (existsb (fun m : string * Z => snd m =? v) (e_members e) = true) as E
      by (apply existsb_exists; exists (n, v); split; [exact D|apply Z.eqb_refl]).
    congruence.
Qed.

(** ** The path *)
Fixpoint dotless (s : string) : bool :=
  match s with EmptyString => true | String c r => negb (Ascii.eqb c dot) && dotless r end.
Lemma rsplit_none s : dotless s = true -> rsplit_dot s = None.
Proof.
  induction s as [|c r IH]; cbn [dotless rsplit_dot]; intros H; [reflexivity|]. apply andb_prop in H as [A B].
  rewrite (IH B). apply Bool.negb_true_iff in A. rewrite A. reflexivity.
Qed.
Lemma rsplit_path m c : dotless c = true -> rsplit_dot (m ++ String dot c) = Some (m, c).
Proof.
  intros D. induction m as [|x m IH]; cbn [append rsplit_dot].
  - rewrite (rsplit_none _ D). reflexivity.
  - rewrite IH. reflexivity.
Qed.
Lemma class_dotless e : In e library_enums -> dotless (e_class e) = true.
Proof.
  intros I. assert (forallb (fun e => dotless (e_class e)) library_enums = true) as H by (vm_compute; reflexivity).
  rewrite forallb_forall in H. auto.
Qed.
Lemma find_enum e : In e library_enums ->
  find (fun x => String.eqb (e_module x) (e_module e) && String.eqb (e_class x) (e_class e)) library_enums = Some e.
Proof.
  intros I. pose proof classes_distinct as D. revert I D.
  generalize library_enums as l. induction l as [|x r IH]; cbn; intros I D; [destruct I|].
  apply NoDup_cons_iff in D as [N D]. destruct I as [->|I].
  - rewrite !String.eqb_refl. reflexivity.
  - destruct (String.eqb_spec (e_class x) (e_class e)) as [E|_].
    + destruct N. rewrite E. apply in_map, I.
    + rewrite Bool.andb_false_r. auto.
Qed.
Lemma restored e n : In e library_enums ->
  restore (mkPickled (e_module e ++ String dot (e_class e)) n) = Some (enum_getitem e n).
Proof.
  intros I. unfold restore. cbn [py_object py_value]. rewrite (rsplit_path _ _ (class_dotless _ I)), (find_enum _ I). reflexivity.
Qed.
Lemma flat e n v : In e library_enums -> declares e n v ->
  flatten e v = mkPickled (e_module e ++ String dot (e_class e)) n.
Proof.
  intros I D. destruct (tables_unambiguous _ I) as [_ B]. unfold flatten, enum_name. rewrite (by_value _ _ _ B D). reflexivity.
Qed.
Lemma round_trip e n v : In e library_enums -> declares e n v ->
  restore (flatten e v) = Some (Ok (VMember (e_class e) v)).
Proof. intros I D. rewrite (flat _ _ _ I D), (restored _ _ I), (getitem_some _ _ _ I D). reflexivity. Qed.
Lemma injective e n v e' n' v' : In e library_enums -> In e' library_enums -> declares e n v -> declares e' n' v' ->
  flatten e v = flatten e' v' -> e_class e = e_class e' /\ v = v'.
Proof.
  intros I I' D D' E. pose proof (round_trip _ _ _ I D) as R. rewrite E, (round_trip _ _ _ I' D') in R.
  injection R as -> ->. auto.
Qed.
Lemma unknown_name e n : In e library_enums -> (~ exists v, declares e n v) ->
  restore (mkPickled (e_module e ++ String dot (e_class e)) n) = Some (Err KeyError).
Proof. intros I N. rewrite (restored _ _ I), (getitem_none _ _ N). reflexivity. Qed.

(** ** The conversions of the other model files *)
Lemma converts_by {T} e (f : Z -> res T) (g : T -> Z) :
  (forall v, match f v with
             | Ok t => g t = v /\ existsb (fun m => snd m =? v) (e_members e) = true
             | Err x => x = ValueError /\ existsb (fun m => snd m =? v) (e_members e) = false
             end) -> converts e f g.
Proof.
  intros H v. specialize (H v). destruct (f v) as [t|x].
  - left. destruct H as [G X]. split; [|exists t; auto].
    apply existsb_exists in X as ([n w] & I & E). cbn in E. apply Z.eqb_eq in E as ->. exists n. exact I.
  - right. destruct H as [-> X]. split; [|reflexivity]. intros [n D].
    assert (existsb (fun m : string * Z => snd m =? v) (e_members e) = true) as E
      by (apply existsb_exists; exists (n, v); split; [exact D|apply Z.eqb_refl]).
    congruence.
Qed.
Ltac table f :=
  apply converts_by; intros v; unfold f; cbn [e_members existsb snd];
  repeat match goal with |- context [v =? ?n] => destruct (Z.eqb_spec v n); [subst v; split; reflexivity|] end;
  split; [reflexivity|];
  repeat match goal with |- context [?n =? v] => destruct (Z.eqb_spec n v); [congruence|] end; reflexivity.
Lemma c_idtype : converts E_IdType idtype_of idtype_value. Proof. unfold E_IdType. table idtype_of. Qed.
Lemma c_nls : converts E_NlsMethod nls_of nls_value. Proof. unfold E_NlsMethod. table nls_of. Qed.
Lemma c_resp : converts E_ResponseMode resp_of resp_value. Proof. unfold E_ResponseMode. table resp_of. Qed.
Lemma c_retry : converts E_RetryMode retry_of retry_value. Proof. unfold E_RetryMode. table retry_of. Qed.
Lemma c_actcond : converts E_ActionCondition actcond_of actcond_value. Proof. unfold E_ActionCondition. table actcond_of. Qed.
Lemma c_storage : converts E_StorageClass storage_of storage_value. Proof. unfold E_StorageClass. table storage_of. Qed.
Lemma c_qtype : converts E_QueryType qtype_of qtype_value. Proof. unfold E_QueryType. table qtype_of. Qed.
Lemma c_comp : converts E_ArithComparisonType comp_of comp_value. Proof. unfold E_ArithComparisonType. table comp_of. Qed.
Lemma c_iftype : converts E_InterfaceType iftype_of iftype_value. Proof. unfold E_InterfaceType. table iftype_of. Qed.
Lemma c_engmode : converts E_EngineeringModeMode engmode_of engmode_value. Proof. unfold E_EngineeringModeMode. table engmode_of. Qed.
Lemma c_coding : converts E_ChannelCoding coding_of coding_value. Proof. unfold E_ChannelCoding. table coding_of. Qed.
Lemma c_class : converts E_ChannelClass class_of class_value. Proof. unfold E_ChannelClass. table class_of. Qed.
Lemma c_band : converts E_ChannelBand band_of band_value. Proof. unfold E_ChannelBand. table band_of. Qed.
Lemma c_bandwidth : converts E_Bandwidth bandwidth_of bandwidth_value. Proof. unfold E_Bandwidth. table bandwidth_of. Qed.

(** ** The list of all system files *)
Lemma insert_perm x l : Permutation (insert_id x l) (x :: l).
Proof.
  induction l as [|y r IH]; cbn [insert_id]; [reflexivity|]. destruct (x <=? y); [reflexivity|].
  rewrite IH. apply perm_swap.
Qed.
Lemma all_perm l : Permutation (all_system_files l) l.
Proof. induction l as [|x r IH]; cbn; [constructor|]. rewrite insert_perm. constructor. exact IH. Qed.
Lemma insert_sorted x l : StronglySorted Z.le l -> StronglySorted Z.le (insert_id x l).
Proof.
  induction l as [|y r IH]; cbn [insert_id]; intros H; [repeat constructor|].
  pose proof H as H0. inversion H as [|? ? Hr Hy]; subst. destruct (Z.leb_spec x y).
  - constructor; [exact H0|]. constructor; [exact H1|]. eapply Forall_impl; [|exact Hy]. intros; lia.
  - constructor; [apply IH, Hr|]. rewrite insert_perm. constructor; [lia|exact Hy].
Qed.
Lemma all_sorted l : StronglySorted Z.le (all_system_files l).
Proof. induction l as [|x r IH]; cbn; [constructor|]. apply insert_sorted, IH. Qed.
Lemma sorted_strict l : NoDup l -> StronglySorted Z.le l -> StronglySorted Z.lt l.
Proof.
  induction l as [|x r IH]; intros D H; [constructor|]. apply NoDup_cons_iff in D as [N D].
  inversion H as [|? ? Hr Hx]; subst. constructor; [auto|].
  rewrite Forall_forall in Hx |- *. intros y I. specialize (Hx y I).
  assert (x <> y) by (intros ->; auto). lia.
Qed.
Lemma known_file id : system_file id <> None <-> 0 <= id <= 46.
Proof.
  unfold system_file.
  repeat match goal with |- context [if ?b then _ else _] => destruct b eqn:? end;
    split; intros; try discriminate; try congruence; try lia.
Qed.
Lemma listing keys : NoDup keys -> (forall id, In id keys <-> system_file id <> None) ->
  StronglySorted Z.lt (all_system_files keys) /\ forall id, In id (all_system_files keys) <-> 0 <= id <= 46.
Proof.
  intros D K. split.
  - apply sorted_strict; [|apply all_sorted]. eapply Permutation_NoDup; [symmetry; apply all_perm|exact D].
  - intros id. rewrite <- known_file, <- K. split; intros I.
    + eapply Permutation_in; [apply all_perm|exact I].
    + eapply Permutation_in; [symmetry; apply all_perm|exact I].
Qed.
Lemma decreasing_keys :
  let keys := map (fun k => 46 - Z.of_nat k) (seq 0 47) in
  NoDup keys /\ (forall id, In id keys <-> system_file id <> None)
  /\ all_system_files keys = map Z.of_nat (seq 0 47).
Proof.
  split; [apply distinct_z_ok; vm_compute; reflexivity|]. split; [|vm_compute; reflexivity].
  intros id. rewrite known_file. split.
  - intros I. apply in_map_iff in I as (k & <- & I). apply in_seq in I. lia.
  - intros R. apply in_map_iff. exists (Z.to_nat (46 - id)). split; [lia|]. apply in_seq. lia.
Qed.
