(** Proofs for C63 *)
From Coq Require Import String ZifyBool ZifyNat.
From Verif Require Import MBase MCt MPhy MSp MFs MProfile MOperands MSysFiles MAlp MSerial MDll
  MSchema SSchema.
Open Scope string_scope.
Open Scope Z_scope.

(** a rule (or its absence) means a kind *)
Definition rule_ok (k : Kind) (r : option Rule) : Prop :=
  forall v, if_given r (fun r => accepts r v) = true <-> allowed k v.

Lemma whole_spec v lo hi :
  (exists z, whole_number v z /\ lo <= z <= hi)
  <-> has_type TInteger v && (lo <=? number v) && (number v <=? hi) = true.
Proof.
  split.
  - intros (z & W & H). destruct W; cbn [has_type number b2z]; lia.
  - intros H. destruct v as [|b|z| | | | | |]; cbn [has_type number b2z] in H; try discriminate.
    + destruct b; [exists 1|exists 0]; (split; [constructor | cbn in H; lia]).
    + exists z. split; [constructor | lia].
Qed.

Lemma isinstance_spec v c : isinstance v c = true <-> instance_of v c.
Proof.
  split.
  - destruct v; cbn [isinstance]; try discriminate; intros H.
    + apply String.eqb_eq in H. subst. constructor.
    + apply orb_true_iff in H as [H|H].
      * apply String.eqb_eq in H. subst. constructor.
      * apply existsb_exists in H as (p & I & E). apply String.eqb_eq in E. subst.
        now constructor.
  - intros H. destruct H; cbn [isinstance].
    + now rewrite String.eqb_refl.
    + apply String.eqb_refl.
    + apply orb_true_iff. right. apply existsb_exists. exists p. split; auto.
      apply String.eqb_refl.
Qed.

Lemma not_none_instance c : ~ instance_of VNone c.
Proof. intros H. inversion H. Qed.

Ltac bools := repeat rewrite ?andb_true_l, ?andb_true_r; rewrite ?andb_true_iff.

Lemma ok_plain lo hi : rule_ok (Whole lo hi) (Some (PLAIN_INTEGER lo hi)).
Proof.
  intros v. cbn [if_given allowed]. rewrite whole_spec.
  destruct v; cbn [accepts PLAIN_INTEGER r_type r_nullable r_min r_max r_allowed r_isinstance
    r_members r_schema r_minlength r_maxlength if_given]; cbn [has_type andb]; bools; tauto.
Qed.
Lemma ok_byte : rule_ok (Whole 0 255) (Some BYTE).
Proof. exact (ok_plain 0 255). Qed.
Lemma ok_integer lo hi : rule_ok (Whole lo hi) (Some (INTEGER None (Some lo) (Some hi))).
Proof. exact (ok_plain lo hi). Qed.
Lemma ok_bits_small n hi : n <=? 53 = true -> hi = 2 ^ n - 1 -> rule_ok (Whole 0 hi) (Some (BITS n)).
Proof. intros E ->. unfold BITS. rewrite E. exact (ok_plain 0 _). Qed.
Lemma ok_bits_big n : n <=? 53 = false -> rule_ok (Whole 0 (2 ^ n)) (Some (BITS n)).
Proof. intros E. unfold BITS. rewrite E. exact (ok_plain 0 _). Qed.
Lemma ok_zero_one : rule_ok (Whole 0 1) (Some (INTEGER (Some [VInt 0; VInt 1]) None None)).
Proof.
  intros v. cbn [if_given allowed]. rewrite whole_spec.
  destruct v; cbn [accepts INTEGER existsb py_same r_type r_nullable r_min r_max r_allowed
    r_isinstance r_members r_schema r_minlength r_maxlength if_given has_type andb orb number];
    try (split; congruence); lia.
Qed.
Lemma ok_flag : rule_ok Flag (Some BOOLEAN).
Proof.
  intros v. cbn [if_given allowed].
  destruct v; cbn; split; try discriminate; try (intros (? & ?); discriminate); eauto.
Qed.
Lemma accepts_object c v : accepts (OBJECT (Some c) false) v = isinstance v c.
Proof.
  destruct v; cbn [accepts OBJECT r_type r_nullable r_min r_max r_allowed
    r_isinstance r_members r_schema r_minlength r_maxlength if_given]; bools; reflexivity.
Qed.
Lemma ok_object c : rule_ok (Instance c) (Some (OBJECT (Some c) false)).
Proof. intros v. cbn [if_given allowed]. rewrite accepts_object. apply isinstance_spec. Qed.
Lemma ok_object_member c : rule_ok (Member c) (Some (OBJECT (Some c) false)).
Proof. exact (ok_object c). Qed.
Lemma ok_enum c : rule_ok (Member c) (Some (ENUM c None)).
Proof. exact (ok_object c). Qed.
Lemma ok_nullable c : rule_ok (InstanceOrNone c) (Some (OBJECT (Some c) true)).
Proof.
  intros v. cbn [if_given allowed]. rewrite <- isinstance_spec.
  destruct v; cbn [accepts OBJECT r_type r_nullable r_min r_max r_allowed
    r_isinstance r_members r_schema r_minlength r_maxlength if_given]; bools;
    intuition (try discriminate).
Qed.
Lemma ok_any_object : rule_ok Anything (Some (OBJECT None true)).
Proof. intros v. cbn [if_given allowed]. destruct v; cbn; tauto. Qed.
Lemma ok_none : rule_ok Anything None.
Proof. intros v. cbn. tauto. Qed.

Lemma forallb_Forall_iff {A} (f : A -> bool) (P : A -> Prop) l :
  (forall x, f x = true <-> P x) -> (forallb f l = true <-> Forall P l).
Proof.
  intros H. rewrite forallb_forall, Forall_forall.
  split; intros G x I; apply H, G, I.
Qed.

Lemma ok_bytes : rule_ok Bytes (Some BYTES).
Proof.
  intros v. cbn [if_given allowed].
  destruct v as [|b|z| |s|l|e x|c|]; try (split; [discriminate | intros (l & E & _); discriminate]).
  cbn [accepts BYTES r_type r_nullable r_min r_max r_allowed r_isinstance r_members r_schema
    r_minlength r_maxlength if_given has_type andb]. bools.
  rewrite (forallb_Forall_iff _ (fun x => exists z, whole_number x z /\ 0 <= z <= 255)).
  - split; [intros F; exists l; now split | intros (l' & E & F); now injection E as ->].
  - intros x. exact (ok_plain 0 255 x).
Qed.

Lemma ok_text n : rule_ok (Text n) (Some (STRING n)).
Proof.
  intros v. cbn [if_given allowed].
  destruct v as [|b|z| |s|l|e x|c|]; try (split; [discriminate | intros (l' & E & _); discriminate]).
  cbn [accepts STRING r_type r_nullable r_min r_max r_allowed r_isinstance r_members r_schema
    r_minlength r_maxlength if_given has_type andb size]. unfold zlen.
  split.
  - intros H. exists s. split; [reflexivity | lia].
  - intros (l & E & F). injection E as ->. lia.
Qed.

Lemma ok_list c lo hi : rule_ok (ListOf c lo hi) (Some (LIST (Some c) lo hi)).
Proof.
  intros v. cbn [if_given allowed].
  destruct v as [|b|z| |s|l|e x|c'|]; try (split; [discriminate | intros (l' & E & _); discriminate]).
  cbn [accepts LIST r_type r_nullable r_min r_max r_allowed r_isinstance r_members r_schema
    r_minlength r_maxlength if_given has_type andb size]. bools.
  rewrite (forallb_Forall_iff _ (fun x => instance_of x c)).
  - unfold zlen. split.
    + intros ((F & L) & H). exists l. repeat split; auto; [lia|].
      destruct hi; cbn [if_given] in H; [lia | exact I].
    + intros (l' & E & F & L & H). injection E as ->. repeat split; auto; [lia|].
      destruct hi; cbn [if_given]; [lia | reflexivity].
  - intros x. exact (ok_object c x).
Qed.

Lemma ok_any_list hi : rule_ok (AnyList hi) (Some (LIST None 0 (Some hi))).
Proof.
  intros v. cbn [if_given allowed].
  destruct v as [|b|z| |s|l|e x|c'|]; try (split; [discriminate | intros (l' & E & _); discriminate]).
  cbn [accepts LIST r_type r_nullable r_min r_max r_allowed r_isinstance r_members r_schema
    r_minlength r_maxlength if_given has_type andb size]. unfold zlen.
  split.
  - intros H. exists l. split; [reflexivity | lia].
  - intros (l' & E & H). injection E as ->. lia.
Qed.

Lemma accepts_members e xs v :
  accepts (ENUM e (Some (map (VMember e) xs))) v = true <-> exists x, v = VMember e x /\ In x xs.
Proof.
  split.
  - destruct v as [|b|z| |s|l|e' x|c'|]; cbn [accepts ENUM r_type r_nullable r_min r_max r_allowed
      r_isinstance r_members r_schema r_minlength r_maxlength if_given]; bools; try discriminate.
    1-5: cbn; intuition discriminate.
    + intros (I & H). cbn [isinstance] in I. apply String.eqb_eq in I. subst e'.
      apply existsb_exists in H as (y & Iy & E). apply in_map_iff in Iy as (n & <- & In').
      cbn [py_same] in E. rewrite String.eqb_refl in E. cbn [andb] in E.
      apply Z.eqb_eq in E. subst. eauto.
    + intros (_ & H). apply existsb_exists in H as (y & Iy & E).
      apply in_map_iff in Iy as (n & <- & In'). discriminate.
    + intros (I & H). discriminate.
  - intros (x & -> & I).
    cbn [accepts ENUM r_type r_nullable r_min r_max r_allowed
      r_isinstance r_members r_schema r_minlength r_maxlength if_given isinstance].
    bools. split; [apply String.eqb_refl|].
    apply existsb_exists. exists (VMember e x). split; [now apply in_map|].
    cbn [py_same]. now rewrite String.eqb_refl, Z.eqb_refl.
Qed.

Lemma ok_members : rule_ok (MemberOf "IdType" [0; 1; 2; 3])
  (Some (ENUM "IdType" (Some [VMember "IdType" (idtype_value UID); VMember "IdType" (idtype_value VID);
                              VMember "IdType" (idtype_value NOID); VMember "IdType" (idtype_value NBID)]))).
Proof.
  intros v. cbn [if_given allowed idtype_value].
  rewrite (accepts_members "IdType" [2; 3; 1; 0] v). split; intros (x & E & I); exists x; split; auto;
    cbn [In] in *; tauto.
Qed.

(** one schema *)
Lemma validate_exactly_one schemas attrs : validate schemas attrs = true <->
  exists before s after, schemas = (before ++ s :: after)%list /\ schema_accepts s attrs = true
  /\ Forall (fun x => schema_accepts x attrs = false) (before ++ after)%list.
Proof.
  unfold validate. rewrite Nat.eqb_eq.
  assert (Z0 : forall l, length (filter (fun s => schema_accepts s attrs) l) = 0%nat <-> Forall (fun x => schema_accepts x attrs = false) l).
  { induction l as [|x l IH]; cbn [filter]; [split; constructor|]. destruct (schema_accepts x attrs) eqn:E.
    - split; [discriminate|]. intro F. inversion F. congruence.
    - rewrite IH. split; [intro; constructor; assumption|]. intro F. inversion F. assumption. }
  split.
  - induction schemas as [|x l IH]; cbn [filter]; [discriminate|]. destruct (schema_accepts x attrs) eqn:E.
    + cbn [length]. intro H. exists [], x, l. split; [reflexivity|]. split; [exact E|]. cbn [app]. apply Z0. congruence.
    + intro H. destruct (IH H) as (b & s & a & -> & A & F). exists (x :: b), s, a. split; [reflexivity|]. split; [exact A|]. constructor; assumption.
  - intros (b & s & a & -> & A & F). apply Forall_app in F as [Fb Fa]. rewrite filter_app, app_length. apply Z0 in Fb, Fa. rewrite Fb.
    cbn [filter]. rewrite A. cbn [length]. rewrite Fa. reflexivity.
Qed.
Lemma schema_one s attrs : validate [s] attrs = schema_accepts s attrs.
Proof. unfold validate. cbn [filter]. now destruct (schema_accepts s attrs). Qed.

Lemma schema_kinds s : forall attrs kinds values,
  Forall2 rule_ok kinds (map (rule_for s) attrs) -> length values = length kinds ->
  (schema_accepts s (combine attrs values) = true <-> Forall2 allowed kinds values).
Proof.
  induction attrs as [|a attrs IH]; intros kinds values F L; cbn [map] in F.
  - inversion F; subst. destruct values; [|discriminate]. cbn. split; auto.
  - inversion F as [|k r ks rs K Ks]; subst. destruct values as [|v vs]; [discriminate|].
    cbn [combine schema_accepts forallb fst snd]. bools.
    rewrite (K v). fold (schema_accepts s (combine attrs vs)).
    rewrite (IH ks vs Ks) by (cbn in L; lia).
    split; [intros (A & B); now constructor | intros H; now inversion H].
Qed.

Lemma class_kinds c s kinds values :
  cd_schema c = [s] -> Forall2 rule_ok kinds (map (rule_for s) (cd_attrs c)) ->
  length values = length kinds ->
  (construct c values = true <-> Forall2 allowed kinds values).
Proof.
  intros E F L. unfold construct. rewrite E, schema_one. now apply schema_kinds.
Qed.

Ltac one_rule :=
  match goal with
  | |- rule_ok _ None => exact ok_none
  | |- rule_ok _ (Some BYTE) => exact ok_byte
  | |- rule_ok _ (Some BYTES) => exact ok_bytes
  | |- rule_ok _ (Some BOOLEAN) => exact ok_flag
  | |- rule_ok _ (Some (INTEGER None (Some ?a) (Some ?b))) => exact (ok_integer a b)
  | |- rule_ok _ (Some (INTEGER _ _ _)) => exact ok_zero_one
  | |- rule_ok _ (Some (PLAIN_INTEGER ?a ?b)) => exact (ok_plain a b)
  | |- rule_ok (Member ?c) (Some (OBJECT _ _)) => exact (ok_object_member c)
  | |- rule_ok (Instance ?c) (Some (OBJECT _ _)) => exact (ok_object c)
  | |- rule_ok (InstanceOrNone ?c) (Some (OBJECT _ _)) => exact (ok_nullable c)
  | |- rule_ok _ (Some (OBJECT _ _)) => exact ok_any_object
  | |- rule_ok _ (Some (ENUM ?c None)) => exact (ok_enum c)
  | |- rule_ok _ (Some (ENUM _ _)) => exact ok_members
  | |- rule_ok _ (Some (STRING ?n)) => exact (ok_text n)
  | |- rule_ok _ (Some (LIST (Some ?c) ?a ?b)) => exact (ok_list c a b)
  | |- rule_ok _ (Some (LIST _ _ (Some ?b))) => exact (ok_any_list b)
  | |- rule_ok _ (Some (BITS _)) =>
      first [apply ok_bits_small; reflexivity | apply ok_bits_big; reflexivity]
  end.

Definition doc_ok (e : ClassDef * list Kind) : Prop :=
  exists s, cd_schema (fst e) = [s] /\ Forall2 rule_ok (snd e) (map (rule_for s) (cd_attrs (fst e))).

Ltac doc_entry :=
  match goal with |- doc_ok (?c, _) =>
    unfold doc_ok; cbn [fst snd]; unfold c; cbn [cd_schema cd_attrs];
    eexists; split; [reflexivity|];
    cbn [map rule_for String.eqb Ascii.eqb Bool.eqb]
  end;
  repeat (apply Forall2_cons; [one_rule|]); try apply Forall2_nil.

Lemma all_documented : Forall doc_ok documented.
Proof.
  unfold documented. repeat (apply Forall_cons; [doc_entry|]). apply Forall_nil.
Qed.

Lemma construct_documented : forall c kinds, In (c, kinds) documented ->
  forall values, length values = length kinds ->
    (construct c values = true <-> Forall2 allowed kinds values).
Proof.
  intros c kinds I values L.
  destruct (proj1 (Forall_forall _ _) all_documented _ I) as (s & E & F).
  now apply class_kinds with (s := s).
Qed.

(** ** Addressee *)
Lemma accepts_null v : accepts (INTEGER (Some [VNone]) None None) v = true <-> v = VNone.
Proof.
  destruct v as [|b|z| |s|l|e x|c|]; cbn [accepts INTEGER existsb py_same orb r_type r_nullable r_min
    r_max r_allowed r_isinstance r_members r_schema r_minlength r_maxlength if_given has_type andb];
    split; congruence.
Qed.

Lemma accepts_idtype t v :
  accepts (ENUM "IdType" (Some [VMember "IdType" (idtype_value t)])) v = true
  <-> v = VMember "IdType" (idtype_value t).
Proof.
  rewrite (accepts_members "IdType" [idtype_value t]). cbn [In]. split.
  - intros (x & -> & [<-|[]]). reflexivity.
  - intros ->. eauto.
Qed.

Lemma addressee_spec it ac i nls :
  construct C_Addressee [it; ac; i; nls] = true <-> addressee_allowed it ac i nls.
Proof.
  unfold construct, validate, C_Addressee. cbn [cd_schema cd_attrs combine].
  unfold schema_accepts. cbn [forallb fst snd rule_for String.eqb Ascii.eqb Bool.eqb if_given filter].
  unfold addressee_allowed.
  assert (A := ok_byte ac). assert (N := ok_enum "NlsMethod" nls). assert (C := ok_object "CT" i).
  assert (V := ok_integer 0 65535 i). assert (U := ok_integer 0 18446744073709551615 i).
  assert (Z0 := accepts_null i).
  assert (T0 := accepts_idtype NBID it). assert (T1 := accepts_idtype NOID it).
  assert (T2 := accepts_idtype UID it). assert (T3 := accepts_idtype VID it).
  cbn [if_given] in *. cbn [idtype_value] in T0, T1, T2, T3 |- *.
  destruct (accepts BYTE ac); [|cbn; bools; rewrite !andb_false_r; cbn].
  2:{ split; [discriminate | intros (H & _); now apply A in H]. }
  destruct (accepts (ENUM "NlsMethod" None) nls).
  2:{ rewrite !andb_false_r. cbn. split; [discriminate | intros (_ & H & _); now apply N in H]. }
  rewrite !andb_true_r, !andb_true_l.
  destruct (accepts (ENUM "IdType" (Some [VMember "IdType" 0])) it).
  { assert (E : it = VMember "IdType" 0) by tauto. clear T0 T1 T2 T3. subst it.
    change (accepts (ENUM "IdType" (Some [VMember "IdType" 1])) (VMember "IdType" 0)) with false.
    change (accepts (ENUM "IdType" (Some [VMember "IdType" 2])) (VMember "IdType" 0)) with false.
    change (accepts (ENUM "IdType" (Some [VMember "IdType" 3])) (VMember "IdType" 0)) with false.
    cbn [andb]. destruct (accepts (OBJECT (Some "CT") false) i); cbn [length Nat.eqb].
    - intuition.
    - split; [discriminate|]. intros (_ & _ & [(_ & H)|[(E & _)|[(E & _)|(E & _)]]]); try discriminate.
      now apply C in H. }
  destruct (accepts (ENUM "IdType" (Some [VMember "IdType" 1])) it).
  { assert (E : it = VMember "IdType" 1) by tauto. clear T0 T1 T2 T3. subst it.
    change (accepts (ENUM "IdType" (Some [VMember "IdType" 2])) (VMember "IdType" 1)) with false.
    change (accepts (ENUM "IdType" (Some [VMember "IdType" 3])) (VMember "IdType" 1)) with false.
    cbn [andb]. destruct (accepts (INTEGER (Some [VNone]) None None) i); cbn [length Nat.eqb].
    - intuition.
    - split; [discriminate|]. intros (_ & _ & [(E & _)|[(_ & H)|[(E & _)|(E & _)]]]); try discriminate.
      now apply Z0 in H. }
  destruct (accepts (ENUM "IdType" (Some [VMember "IdType" 2])) it).
  { assert (E : it = VMember "IdType" 2) by tauto. clear T0 T1 T2 T3. subst it.
    change (accepts (ENUM "IdType" (Some [VMember "IdType" 3])) (VMember "IdType" 2)) with false.
    cbn [andb]. destruct (accepts (INTEGER None (Some 0) (Some 18446744073709551615)) i);
      cbn [length Nat.eqb].
    - intuition.
    - split; [discriminate|]. intros (_ & _ & [(E & _)|[(E & _)|[(_ & H)|(E & _)]]]); try discriminate.
      now apply U in H. }
  destruct (accepts (ENUM "IdType" (Some [VMember "IdType" 3])) it).
  { assert (E : it = VMember "IdType" 3) by tauto. clear T0 T1 T2 T3. subst it.
    cbn [andb]. destruct (accepts (INTEGER None (Some 0) (Some 65535)) i); cbn [length Nat.eqb].
    - intuition.
    - split; [discriminate|]. intros (_ & _ & [(E & _)|[(E & _)|[(E & _)|(_ & H)]]]); try discriminate.
      now apply V in H. }
  cbn. split; [discriminate|].
  intros (_ & _ & [(E & _)|[(E & _)|[(E & _)|(E & _)]]]);
    [apply T0 in E | apply T1 in E | apply T2 in E | apply T3 in E]; discriminate.
Qed.

(** ** The unchecked attributes *)
Lemma unchecked_list : unchecked =
  [ ("Status", "unicast");
    ("LoRaWANInterfaceConfigurationABP", "adr_enabled"); ("LoRaWANInterfaceConfigurationABP", "request_ack");
    ("LoRaWANInterfaceConfigurationABP", "app_port"); ("LoRaWANInterfaceConfigurationABP", "data_rate");
    ("LoRaWANInterfaceConfigurationABP", "dev_addr"); ("LoRaWANInterfaceConfigurationABP", "netw_id");
    ("LoRaWANInterfaceConfigurationOTAA", "adr_enabled"); ("LoRaWANInterfaceConfigurationOTAA", "request_ack");
    ("LoRaWANInterfaceConfigurationOTAA", "app_port"); ("LoRaWANInterfaceConfigurationOTAA", "data_rate");
    ("Action", "operand"); ("RegularAction", "operand");
    ("StatusAction", "op"); ("StatusAction", "operand");
    ("TagRequestAction", "operand"); ("TagResponseAction", "operand");
    ("d7atp.Frame", "ack_template");
    ("FilePermissions", "user_writeable"); ("FilePermissions", "user_executeable");
    ("FilePermissions", "guest_writeable"); ("FilePermissions", "guest_executeable");
    ("FileProperties", "act_condition");
    ("DllConfigFile", "lq_filter"); ("DllConfigFile", "nf_ctrl");
    ("DllConfigFile", "rx_nf_method_parameter"); ("DllConfigFile", "tx_nf_method_parameter");
    ("FactorySettingsFile", "preamble_tol_lo_rate"); ("FactorySettingsFile", "preamble_tol_normal_rate");
    ("FactorySettingsFile", "preamble_tol_hi_rate") ].
Proof. vm_compute. reflexivity. Qed.

Lemma allowed_other k : allowed k VOther <-> k = Anything.
Proof.
  destruct k; cbn [allowed]; split; try discriminate; try tauto; intros H; exfalso.
  all: repeat match goal with
       | H : exists _, _ |- _ => destruct H
       | H : _ /\ _ |- _ => destruct H
       | H : _ \/ _ |- _ => destruct H
       | H : whole_number VOther _ |- _ => inversion H
       | H : instance_of VOther _ |- _ => inversion H
       end; discriminate.
Qed.

(** ** The constructors of the other files check exactly the schemas *)
Lemma acc_int lo hi z : accepts (INTEGER None (Some lo) (Some hi)) (VInt z) = in_range lo hi z.
Proof. cbn [accepts INTEGER r_type r_nullable r_min r_max r_allowed r_isinstance r_members r_schema
    r_minlength r_maxlength if_given has_type number andb]. now rewrite !andb_true_r. Qed.
Lemma acc_plain lo hi z : accepts (PLAIN_INTEGER lo hi) (VInt z) = in_range lo hi z.
Proof. exact (acc_int lo hi z). Qed.
Lemma acc_byte z : accepts BYTE (VInt z) = in_range 0 255 z.
Proof. exact (acc_int 0 255 z). Qed.
Lemma acc_bits16 z : accepts (BITS 16) (VInt z) = in_range 0 65535 z.
Proof. exact (acc_int 0 65535 z). Qed.
Lemma acc_bits128 z :
  accepts (BITS 128) (VInt z) = in_range 0 340282366920938463463374607431768211456 z.
Proof. exact (acc_int 0 340282366920938463463374607431768211456 z). Qed.
Lemma acc_bool b : accepts BOOLEAN (VBool b) = true.
Proof. reflexivity. Qed.
Lemma acc_object c n : accepts (OBJECT (Some c) n) (VObject c) = true.
Proof. cbn. now rewrite String.eqb_refl. Qed.
Lemma acc_opt {A} c (o : option A) : accepts (OBJECT (Some c) true) (v_opt c o) = true.
Proof. destruct o; [apply acc_object | reflexivity]. Qed.
Lemma acc_enum c x : accepts (ENUM c None) (VMember c x) = true.
Proof. cbn. now rewrite String.eqb_refl. Qed.
Lemma acc_enum_object c x : accepts (OBJECT (Some c) false) (VMember c x) = true.
Proof. cbn. now rewrite String.eqb_refl. Qed.
Lemma acc_bytes l : accepts BYTES (v_bytes l) = forallb is_BYTE l.
Proof.
  cbn [accepts BYTES v_bytes r_type r_nullable r_min r_max r_allowed r_isinstance r_members r_schema
    r_minlength r_maxlength if_given has_type andb]. rewrite !andb_true_r.
  induction l as [|a l IH]; [reflexivity|]. cbn [map forallb].
  now rewrite IH, acc_plain.
Qed.
Lemma acc_text n l : accepts (STRING n) (VText l) = (zlen l <=? n).
Proof. reflexivity. Qed.
Lemma acc_list {A} c lo hi (l : list A) :
  accepts (LIST (Some c) lo (Some hi)) (v_list c l) = (lo <=? zlen l) && (zlen l <=? hi).
Proof.
  cbn [accepts LIST v_list r_type r_nullable r_min r_max r_allowed r_isinstance r_members r_schema
    r_minlength r_maxlength if_given has_type andb size].
  assert (E : zlen (map (fun _ : A => VObject c) l) = zlen l) by (unfold zlen; now rewrite map_length).
  rewrite E.
  replace (forallb _ (map (fun _ : A => VObject c) l)) with true; [reflexivity|].
  symmetry. apply forallb_forall. intros x I. apply in_map_iff in I as (y & <- & _).
  exact (acc_object c false).
Qed.
Lemma acc_any_list hi l : accepts (LIST None 0 (Some hi)) (VSeq l) = (zlen l <=? hi).
Proof.
  cbn [accepts LIST r_type r_nullable r_min r_max r_allowed r_isinstance r_members r_schema
    r_minlength r_maxlength if_given has_type andb size].
  unfold zlen. assert (0 <= Z.of_nat (length l)) by lia. lia.
Qed.

Lemma accepted_validated {A} b (x : A) : accepted (validated b x) = b.
Proof. now destruct b. Qed.

Ltac expand :=
  unfold construct; match goal with |- context [cd_schema ?c] => unfold c end;
  cbn [cd_schema cd_attrs]; rewrite schema_one; unfold schema_accepts;
  cbn [combine forallb fst snd rule_for String.eqb Ascii.eqb Bool.eqb if_given].
Ltac link :=
  intros; try rewrite accepted_validated; expand;
  rewrite ?acc_int, ?acc_plain, ?acc_byte, ?acc_bits16, ?acc_bits128, ?acc_bool, ?acc_object, ?acc_opt,
    ?acc_enum, ?acc_enum_object, ?acc_bytes, ?acc_text, ?acc_list, ?acc_any_list;
  unfold is_BYTE; cbn [andb]; rewrite ?andb_true_r, <- ?andb_assoc; try reflexivity.

Lemma link_ct e m : accepted (mk_ct e m) = construct C_CT [VInt e; VInt m].
Proof. unfold mk_ct. link. Qed.
Lemma link_channel_id h i :
  accepted (mk_channel_id h i) = construct C_ChannelID [VObject "ChannelHeader"; VInt i].
Proof. unfold mk_channel_id. link. Qed.
Lemma link_csi b w i :
  accepted (mk_csi b w i) = construct C_ChannelStatusIdentifier
    [VMember "ChannelBand" (band_value b); VMember "Bandwidth" (bandwidth_value w); VInt i].
Proof. unfold mk_csi. link. Qed.
Lemma link_subband st en ei cca du :
  accepted (mk_subband st en ei cca du)
  = construct C_SubBand [VInt st; VInt en; VInt ei; VInt cca; VInt du].
Proof. unfold mk_subband. link. Qed.
Lemma link_sub_profile b c :
  accepted (mk_sub_profile b c) = construct C_SubProfile [VInt b; VObject "CT"].
Proof. unfold mk_sub_profile. link. Qed.
Lemma link_access_profile h ps bs :
  accepted (mk_access_profile h ps bs)
  = construct C_AccessProfile [VObject "ChannelHeader"; v_list "SubProfile" ps; v_list "SubBand" bs].
Proof. unfold mk_access_profile. link. unfold zlen. lia. Qed.
Lemma link_status cid rx lb trx nls missed retry unicast fifo seq rto a :
  accepted (mk_status cid rx lb trx nls missed retry unicast fifo seq rto a)
  = construct C_Status [VObject "ChannelID"; VInt rx; VInt lb; VInt trx; VBool nls; VBool missed;
      VBool retry; VBool unicast; VInt fifo; VInt seq; VObject "CT"; VObject "Addressee"].
Proof. unfold mk_status. link. Qed.
Lemma link_length v : accepted (mk_length v) = construct C_Length [VInt v].
Proof. unfold mk_length. link. Qed.
Lemma link_offset i o : accepted (mk_offset i o) = construct C_Offset [VInt i; VObject "Length"].
Proof. unfold mk_offset. link. Qed.
Lemma link_data d o :
  accepted (mk_data d o)
  = construct C_Length [VInt (zlen d)]
    && construct C_Data [VObject "Offset"; v_bytes d; VObject "Length"].
Proof.
  rewrite <- link_length. unfold mk_data.
  destruct (mk_length (zlen d)) as [l|e]; [|reflexivity].
  change (accepted (Ok l)) with true. rewrite andb_true_l.
  link; apply accepted_validated.
Qed.
Lemma link_data_request n o :
  accepted (mk_data_request n o)
  = construct C_Length [VInt n] && construct C_DataRequest [VObject "Offset"; VObject "Length"].
Proof.
  rewrite <- link_length. unfold mk_data_request.
  destruct (mk_length n) as [l|e]; [|reflexivity].
  change (accepted (Ok l)) with true. rewrite andb_true_l.
  link; apply accepted_validated.
Qed.
Lemma link_file_id i : accepted (mk_file_id i) = construct C_FileIdOperand [VInt i].
Proof. unfold mk_file_id. link. Qed.
Lemma link_fho i h :
  accepted (mk_fho i h) = construct C_FileHeaderOperand [VInt i; VObject "FileHeader"].
Proof. unfold mk_fho. link. Qed.
Lemma link_query t m p l v o :
  accepted (mk_query t m p l v o)
  = construct C_QueryOperand [VMember "QueryType" (qtype_value t); VBool m;
      VObject "ArithQueryParams"; VObject "Length"; v_bytes v; VObject "Offset"].
Proof. unfold mk_query. link. Qed.
Lemma link_iso i s :
  accepted (mk_iso i s) = construct C_InterfaceStatusOperand [VInt i; v_opt "Status" s].
Proof. unfold mk_iso. link. Qed.
Lemma link_indirect i a :
  accepted (mk_indirect i a) = construct C_IndirectInterfaceOperand [VInt i; v_opt "Addressee" a].
Proof. unfold mk_indirect. link. Qed.
Lemma link_tag t : accepted (mk_tag t) = construct C_TagId [VInt t].
Proof. unfold mk_tag. link. Qed.
Lemma link_fh p q a i s l :
  accepted (mk_fh p q a i s l)
  = construct C_FileHeader [VObject "FilePermissions"; VObject "FileProperties"; VInt a; VInt i;
      VInt s; VInt l].
Proof. unfold mk_fh. link. Qed.
Lemma link_tp_frame c d t cmd agc tl te tc ack :
  accepted (mk_tp_frame c d t cmd agc tl te tc ack)
  = construct C_d7atp_Frame [VObject "d7atp.Control"; VInt d; VInt t;
      VInt (match agc with None => 10 | Some x => x end); v_opt "CT" tl; v_opt "CT" te; v_opt "CT" tc;
      match ack with Some _ => VSeq [VOther; VOther] | None => VNone end; VObject "Command"].
Proof. unfold mk_tp_frame. cbv zeta. destruct ack; link. Qed.
Lemma link_np_frame c cl o t :
  accepted (mk_np_frame c cl o t)
  = construct C_d7anp_Frame [VObject "d7anp.Control"; VInt cl; v_bytes o; VObject "d7atp.Frame"].
Proof. unfold mk_np_frame. link. Qed.
Lemma link_fgc t e :
  accepted (mk_fgc t e) = construct C_ForegroundFrameControl [v_idtype t; VInt e].
Proof. unfold mk_fgc, v_idtype. link. Qed.
Lemma link_bgc t g :
  accepted (mk_bgc t g) = construct C_BackgroundFrameControl [v_idtype t; VInt g].
Proof. unfold mk_bgc, v_idtype. link. Qed.
Lemma link_fg_frame l s c t n crc :
  accepted (mk_fg_frame l s c t n crc)
  = construct C_ForegroundFrame [VInt l; VInt s; VObject "ForegroundFrameControl"; v_bytes t;
      VObject "d7anp.Frame"; VInt crc].
Proof. unfold mk_fg_frame. link. Qed.
Lemma link_bg_frame s c p crc :
  accepted (mk_bg_frame s c p crc)
  = construct C_BackgroundFrame [VInt s; VObject "BackgroundFrameControl"; VInt p; VInt crc].
Proof. unfold mk_bg_frame. link. Qed.
Lemma link_uid u : accepted (mk_uid u) = construct C_UidFile [VInt u].
Proof. unfold mk_uid. link. Qed.
Lemma link_vid v c : accepted (mk_vid v c) = construct C_VidFile [VInt v; VInt c].
Proof. unfold mk_vid. link. Qed.
Lemma link_dll_config ac lq nf rx tx :
  accepted (mk_dll_config ac lq nf rx tx)
  = construct C_DllConfigFile [VInt ac; VInt lq; VInt nf; VInt rx; VInt tx].
Proof. unfold mk_dll_config. link. Qed.
Lemma link_dll_status lv bu no h ix ra sc ti :
  accepted (mk_dll_status lv bu no h ix ra sc ti)
  = construct C_DllStatusFile [VInt lv; VInt bu; VInt no; VObject "ChannelHeader"; VInt ix; VInt ra;
      VInt sc; VInt ti].
Proof. unfold mk_dll_status. link. Qed.
Lemma link_eng m fl ti c ei :
  accepted (mk_eng m fl ti c ei)
  = construct C_EngineeringModeFile [VMember "EngineeringModeMode" (engmode_value m); VInt fl; VInt ti;
      VObject "ChannelID"; VInt ei].
Proof. unfold mk_eng. link. Qed.
Lemma link_fw a b c d app git :
  accepted (mk_fw a b c d app git)
  = construct C_FirmwareVersionFile [VInt a; VInt b; VInt c; VInt d; VText app; VText git].
Proof. unfold mk_fw. link. unfold zlen. repeat f_equal; lia. Qed.
Lemma link_key k : accepted (mk_key k) = construct C_SecurityKeyFile [VInt k]
  /\ accepted (mk_key k) = construct C_RootAuthenticationKeyFile [VInt k; VInt 0]
  /\ accepted (mk_key k) = construct C_UserAuthenticationKeyFile [VInt k; VInt 0].
Proof. unfold mk_key. split; [link | split; link]. Qed.
Lemma link_apf sp p :
  accepted (mk_apf sp p) = construct C_AccessProfileFile [VInt sp; v_opt "AccessProfile" p].
Proof. unfold mk_apf. link. Qed.
Lemma link_phy up rx tx duty n ids noise :
  accepted (mk_phy_status up rx tx duty n ids noise)
  = construct C_PhyStatusFile [VInt up; VInt rx; VInt tx; VInt duty; VInt n;
      v_list "ChannelStatusIdentifier" (py_extend csi_default n ids);
      VSeq (map VInt (py_extend 0 n noise))].
Proof.
  unfold mk_phy_status. cbv zeta. link.
  assert (E : forall l : list Z, zlen (map VInt l) = zlen l) by (intros; unfold zlen; now rewrite map_length).
  rewrite E. replace (0 <=? zlen (py_extend csi_default n ids)) with true by (unfold zlen; lia).
  reflexivity.
Qed.
Lemma link_addr ac t i m :
  accepted (mk_addr ac t i m) = construct C_Addressee [v_idtype t; VInt ac; v_addr_id i; v_nls m].
Proof.
  unfold mk_addr. rewrite accepted_validated. apply eq_true_iff_eq.
  rewrite addressee_spec. unfold addressee_allowed, v_idtype, v_nls, addr_id_ok, is_BYTE, in_range.
  cbn [allowed].
  assert (W : forall z hi, (exists x, whole_number (VInt z) x /\ 0 <= x <= hi) <-> 0 <= z <= hi).
  { intros z hi. split; [intros (x & H & B); inversion H; now subst | intros B; exists z; split; [constructor|auto]]. }
  rewrite W.
  assert (N : instance_of (VMember "NlsMethod" (nls_value m)) "NlsMethod") by constructor.
  rewrite andb_true_iff.
  replace ((0 <=? ac) && (ac <=? 255) = true) with (is_true ((0 <=? ac) && (ac <=? 255))) by reflexivity.
  assert (B : is_true ((0 <=? ac) && (ac <=? 255)) <-> 0 <= ac <= 255) by (unfold is_true; lia).
  rewrite B.
  destruct t, i as [|z|c]; cbn [v_addr_id idtype_value]; rewrite ?W.
  all: split; [intros (A1 & A2) | intros (A1 & _ & A2)].
  all: try discriminate A2.
  all: first
    [ split; [exact A1 | split; [exact N|]];
      solve [ rewrite andb_true_iff in A2; intuition lia | intuition constructor ]
    | split; [exact A1|];
      destruct A2 as [(E & A2)|[(E & A2)|[(E & A2)|(E & A2)]]]; try discriminate E;
      solve [ reflexivity | apply W in A2; lia | lia | discriminate A2
            | inversion A2 | destruct A2 as (x & A2 & _); inversion A2 ] ].
Qed.
Lemma link_factory gain rates pre tol smoothing offset bw sf gauss paramp :
  length rates = 9%nat -> length pre = 6%nat -> length tol = 3%nat ->
  accepted (mk_factory gain rates pre tol smoothing offset bw sf gauss paramp)
  = match smooth smoothing with
    | Ok sm => construct C_FactorySettingsFile
        ([VInt gain] ++ map VInt rates ++ map VInt pre ++ map VInt tol
         ++ [VInt sm; VInt offset; VInt bw; VInt sf; VInt gauss; VInt paramp])
    | Err _ => false
    end.
Proof.
  intros R P T.
  destruct rates as [|r1 [|r2 [|r3 [|r4 [|r5 [|r6 [|r7 [|r8 [|r9 [|]]]]]]]]]]; try discriminate R.
  destruct pre as [|p1 [|p2 [|p3 [|p4 [|p5 [|p6 [|]]]]]]]; try discriminate P.
  destruct tol as [|t1 [|t2 [|t3 [|]]]]; try discriminate T.
  unfold mk_factory. destruct (smooth smoothing) as [sm|]; [|reflexivity].
  cbn [map app]. cbn [rbind]. link.
Qed.

Lemma link_action k o : accepted (mk_action k o) = action_construct k o.
Proof.
  unfold mk_action. rewrite accepted_validated. unfold action_construct. cbv zeta.
  destruct k as [g r|r|v r|e|r|e x].
  - destruct o, g, r; reflexivity.
  - destruct o, r; reflexivity.
  - destruct o, v, r; reflexivity.
  - assert (E : forall o, construct C_StatusAction [VInt e; VInt (op_code o); v_operation o; v_operand o]
                 = accepts (INTEGER (Some [VInt 0; VInt 1]) None None) (VInt e)).
    { intros o'. expand. destruct o'; cbn [v_operation v_operand];
        match goal with |- ?a && _ = _ => destruct a; reflexivity end. }
    rewrite E. cbn [accepts INTEGER existsb py_same orb r_type r_nullable r_min r_max r_allowed
      r_isinstance r_members r_schema r_minlength r_maxlength if_given has_type andb].
    rewrite orb_false_r, !andb_true_r. now destruct o.
  - destruct o, r; reflexivity.
  - destruct o, e, x; reflexivity.
Qed.

(** objects the model builds without a check *)
Lemma link_unchecked :
  (forall h : ChannelHeader, construct C_ChannelHeader
     [VMember "ChannelCoding" (coding_value (ch_coding h)); VMember "ChannelClass" (class_value (ch_class h));
      VMember "ChannelBand" (band_value (ch_band h))] = true)
  /\ (forall q : QoS, construct C_QoS [VMember "ResponseMode" (resp_value (q_resp q));
        VMember "RetryMode" (retry_value (q_retry q)); VBool (q_stop q); VBool (q_record q)] = true)
  /\ construct C_Configuration [VObject "QoS"; VObject "CT"; VObject "Addressee"] = true
  /\ (forall p : FilePermissions, construct C_FilePermissions
        (map VBool [fp_encrypted p; fp_executable p; fp_user_r p; fp_user_w p; fp_user_x p;
                    fp_guest_r p; fp_guest_w p; fp_guest_x p]) = true)
  /\ (forall p : FileProperties, construct C_FileProperties
        [VBool (pr_enabled p); VMember "ActionCondition" (actcond_value (pr_cond p));
         VMember "StorageClass" (storage_value (pr_storage p))] = true)
  /\ (forall a : ArithParams, construct C_ArithQueryParams
        [VBool (ar_signed a); VMember "ArithComparisonType" (comp_value (ar_comp a))] = true)
  /\ (forall (t : InterfaceType) (c : option string),
        In c [None; Some "Configuration"; Some "LoRaWANInterfaceConfigurationABP";
              Some "LoRaWANInterfaceConfigurationOTAA"] ->
        construct C_InterfaceConfiguration
          [VMember "InterfaceType" (iftype_value t);
           match c with Some x => VObject x | None => VNone end] = true)
  /\ construct C_InterfaceConfigurationFile [VObject "InterfaceConfiguration"] = true
  /\ (forall c : TpControl, construct C_d7atp_Control
        (map VBool [tc_start c; tc_tl c; tc_te c; tc_ack_req c; tc_ack_nv c; tc_ack_rec c; tc_agc c]) = true)
  /\ (forall c : NpControl, construct C_d7anp_Control
        [VBool (nc_no_origin c); v_nls (nc_nls c); VBool (nc_hopping c); v_idtype (nc_id_type c)] = true).
Proof.
  repeat match goal with |- _ /\ _ => split end.
  - intros h. now destruct (ch_coding h), (ch_class h), (ch_band h).
  - intros q. now destruct (q_resp q), (q_retry q), (q_stop q), (q_record q).
  - reflexivity.
  - intros [a b c d e f g h]. now destruct a, b, c, d, e, f, g, h.
  - intros p. now destruct (pr_enabled p), (pr_cond p), (pr_storage p).
  - intros a. now destruct (ar_signed a), (ar_comp a).
  - intros t c [<-|[<-|[<-|[<-|[]]]]]; now destruct t.
  - reflexivity.
  - intros [a b c d e f g]. now destruct a, b, c, d, e, f, g.
  - intros c. now destruct (nc_no_origin c), (nc_nls c), (nc_hopping c), (nc_id_type c).
Qed.

(** ** Foreign values *)
Lemma foreign_rejected c kinds : In (c, kinds) documented ->
  forall values i attr, length values = length kinds -> nth_error values i = Some VOther ->
    nth_error (cd_attrs c) i = Some attr -> construct c values = true ->
    In (cd_name c, attr) unchecked.
Proof.
  intros I values i attr L V A C.
  apply (construct_documented c kinds I values L) in C.
  assert (K : nth_error kinds i = Some Anything).
  { clear -C V. revert i V. induction C as [|k v ks vs H C IH]; intros [|i] V; try discriminate.
    - injection V as ->. apply allowed_other in H. now subst.
    - exact (IH i V). }
  unfold unchecked. apply in_flat_map. exists (c, kinds). split; [exact I|].
  cbn [fst snd]. apply in_map_iff. exists (attr, Anything). split; [reflexivity|].
  apply filter_In. split; [|reflexivity].
  revert i kinds V A K I L C. generalize (cd_attrs c) as attrs. intros attrs i kinds _ A K _ _ _.
  revert attrs kinds A K. induction i as [|i IH]; intros [|a attrs] [|k kinds] A K; try discriminate.
  - cbn in A, K. injection A as ->. injection K as ->. now left.
  - right. now apply IH.
Qed.

Lemma anything_accepted c kinds : In (c, kinds) documented ->
  forall values i v, length values = length kinds -> nth_error kinds i = Some Anything ->
    construct c (firstn i values ++ v :: skipn (S i) values) = construct c values.
Proof.
  intros I values i v L K. apply eq_true_iff_eq.
  assert (Li : (i < length values)%nat) by (rewrite L; apply nth_error_Some; now rewrite K).
  rewrite (construct_documented c kinds I values L).
  rewrite (construct_documented c kinds I).
  - clear I. revert kinds values L K Li.
    induction i as [|i IH]; intros [|k kinds] [|x values] L K Li; try discriminate; cbn in Li; try lia.
    + cbn in K. injection K as ->. cbn [firstn skipn app].
      split; intros H; inversion H; subst; constructor; try exact Logic.I; auto.
    + cbn [nth_error] in K. cbn [firstn app].
      change (skipn (S (S i)) (x :: values)) with (skipn (S i) values).
      cbn [length] in L. specialize (IH kinds values ltac:(lia) K ltac:(lia)).
      split; intros H; inversion H; subst; constructor; auto; now apply IH.
  - rewrite <- L. rewrite app_length, firstn_length. cbn [length].
    rewrite skipn_length. lia.
Qed.
