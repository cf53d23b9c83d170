(** Lemmas for C76: names. *)
From Coq Require Import String Lia ZifyBool.
From Verif Require Import MBase MPhy MSp MFs MOperands MSysFiles MEnum SEnum SEnumNames.
Open Scope string_scope.
Open Scope Z_scope.

Lemma which : map (fun e => (e_module e, e_class e)) library_enums = enumerations.
Proof. reflexivity. Qed.
Ltac by_cases := intros []; unfold declares; cbn; auto 12.
Lemma n_idtype : named E_IdType idtype_text idtype_value. Proof. by_cases. Qed.
Lemma n_nls : named E_NlsMethod nls_text nls_value. Proof. by_cases. Qed.
Lemma n_resp : named E_ResponseMode resp_text resp_value. Proof. by_cases. Qed.
Lemma n_retry : named E_RetryMode retry_text retry_value. Proof. by_cases. Qed.
Lemma n_actcond : named E_ActionCondition actcond_text actcond_value. Proof. by_cases. Qed.
Lemma n_storage : named E_StorageClass storage_text storage_value. Proof. by_cases. Qed.
Lemma n_qtype : named E_QueryType qtype_text qtype_value. Proof. by_cases. Qed.
Lemma n_comp : named E_ArithComparisonType comp_text comp_value. Proof. by_cases. Qed.
Lemma n_iftype : named E_InterfaceType iftype_text iftype_value. Proof. by_cases. Qed.
Lemma n_engmode : named E_EngineeringModeMode engmode_text engmode_value. Proof. by_cases. Qed.
Lemma n_coding : named E_ChannelCoding coding_text coding_value. Proof. by_cases. Qed.
Lemma n_class : named E_ChannelClass class_text class_value. Proof. by_cases. Qed.
Lemma n_band : named E_ChannelBand band_text band_value. Proof. by_cases. Qed.
Lemma n_bandwidth : named E_Bandwidth bandwidth_text bandwidth_value. Proof. by_cases. Qed.

Definition same (a : string * Z) (b : string * Z) : bool := String.eqb (fst a) (fst b) && (snd a =? snd b).
Lemma same_ok a b : same a b = true -> a = b.
Proof.
  destruct a as [n v], b as [m w]. unfold same. cbn. intros H. apply andb_prop in H as [A B].
  apply String.eqb_eq in A. apply Z.eqb_eq in B. congruence.
Qed.
Lemma same_refl a : same a a = true.
Proof. unfold same. rewrite String.eqb_refl, Z.eqb_refl. reflexivity. Qed.
(** both directions by going through the table *)
Definition has_name (m : string * Z) : bool :=
  match system_file (snd m) with
  | Some f => match file_text f with Some n => String.eqb (fst m) n | None => existsb (same m) without_class end
  | None => existsb (same m) without_class
  end.
Lemma table : forallb has_name (e_members E_SystemFileIds) = true.
Proof. vm_compute. reflexivity. Qed.
Lemma ids_named n id : declares E_SystemFileIds n id <->
  (exists f, system_file id = Some f /\ file_text f = Some n) \/ In (n, id) without_class.
Proof.
  split.
  - intros D. pose proof (proj1 (forallb_forall _ _) table _ D) as H. unfold has_name in H. cbn [fst snd] in H.
    destruct (system_file id) as [f|] eqn:F; [destruct (file_text f) as [m|] eqn:T|].
    + left. exists f. split; [reflexivity|]. apply String.eqb_eq in H. congruence.
    + right. apply existsb_exists in H as (x & I & S). apply same_ok in S as <-. exact I.
    + right. apply existsb_exists in H as (x & I & S). apply same_ok in S as <-. exact I.
  - intros [(f & F & T)|I].
    + assert (0 <= id <= 46) as R.
      { destruct (Z_le_gt_dec id 46) as [L|G]; [destruct (Z_le_gt_dec 0 id) as [L0|G0]; [lia|]|];
        exfalso; unfold system_file in F;
        repeat match type of F with (if ?c then _ else _) = _ => replace c with false in F by lia end; discriminate. }
      assert (forallb (fun k => let id := Z.of_nat k in match system_file id with
                        | Some f => match file_text f with Some n => existsb (same (n, id)) (e_members E_SystemFileIds) | None => true end
                        | None => true end) (seq 0 47) = true) as A by (vm_compute; reflexivity).
      rewrite forallb_forall in A. specialize (A (Z.to_nat id)). cbv zeta in A. rewrite Z2Nat.id in A by lia.
      rewrite F, T in A. specialize (A ltac:(apply in_seq; lia)). apply existsb_exists in A as (x & I & S).
      apply same_ok in S as <-. exact I.
    + assert (forallb (fun m => existsb (same m) (e_members E_SystemFileIds)) without_class = true) as A by (vm_compute; reflexivity).
      rewrite forallb_forall in A. specialize (A _ I). apply existsb_exists in A as (x & J & S). apply same_ok in S as <-. exact J.
Qed.

Lemma off_the_wire : forall n v,
  (declares E_FrameType n v <-> In (n, v) frame_types) /\ (declares E_CsmaCaMode n v <-> In (n, v) csma_ca_modes).
Proof. unfold declares. intros n v. cbn. tauto. Qed.
