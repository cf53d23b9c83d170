(** C76: members of enumerations by number, by name and through JSON; the list
    of all system files. *)
From Coq Require Import String Ascii Sorted.
From Verif Require Import MBase MPhy MSp MFs MOperands MSysFiles MSchema MEnum SEnum SEnumNames LEnum LEnum2.
Open Scope string_scope.
Open Scope Z_scope.

(** Within every enumeration the names are distinct and the values are. *)
Theorem C76_no_aliases : forall e, In e library_enums -> unambiguous e.
Proof. exact tables_unambiguous. Qed.
Print Assumptions C76_no_aliases.

(** What is written for a member names its class and the member... *)
Theorem C76_written : forall e n v, In e library_enums -> declares e n v ->
  flatten e v = mkPickled (e_module e ++ "." ++ e_class e) n.
Proof. exact flat. Qed.
Print Assumptions C76_written.
(** ...and reading it gives the same member back. *)
Theorem C76_round_trip : forall e n v, In e library_enums -> declares e n v ->
  restore (flatten e v) = Some (Ok (VMember (e_class e) v)).
Proof. exact round_trip. Qed.
Print Assumptions C76_round_trip.
(** Different members are written differently. *)
Theorem C76_members_told_apart : forall e n v e' n' v', In e library_enums -> In e' library_enums ->
  declares e n v -> declares e' n' v' -> flatten e v = flatten e' v' -> e_class e = e_class e' /\ v = v'.
Proof. exact injective. Qed.
Print Assumptions C76_members_told_apart.
(** A name no member has is refused. *)
Theorem C76_unknown_name : forall e n, In e library_enums -> (~ exists v, declares e n v) ->
  restore (mkPickled (e_module e ++ "." ++ e_class e) n) = Some (Err KeyError).
Proof. exact unknown_name. Qed.
Print Assumptions C76_unknown_name.

(** By number and by name. *)
Theorem C76_by_number : forall e v,
  (exists n, declares e n v) /\ enum_call e v = Ok (VMember (e_class e) v) \/
  (~ exists n, declares e n v) /\ enum_call e v = Err ValueError.
Proof. exact call. Qed.
Print Assumptions C76_by_number.
Theorem C76_by_name : forall e n, In e library_enums ->
  (exists v, declares e n v /\ enum_getitem e n = Ok (VMember (e_class e) v)) \/
  (~ exists v, declares e n v) /\ enum_getitem e n = Err KeyError.
Proof. exact getitem. Qed.
Print Assumptions C76_by_name.

(** The numbers read from the wire become members, and members numbers, by the
    same tables: for every enumeration that has a field on the wire. *)
Theorem C76_numbers_on_the_wire :
  converts E_IdType idtype_of idtype_value /\ converts E_NlsMethod nls_of nls_value
  /\ converts E_ResponseMode resp_of resp_value /\ converts E_RetryMode retry_of retry_value
  /\ converts E_ActionCondition actcond_of actcond_value /\ converts E_StorageClass storage_of storage_value
  /\ converts E_QueryType qtype_of qtype_value /\ converts E_ArithComparisonType comp_of comp_value
  /\ converts E_InterfaceType iftype_of iftype_value /\ converts E_EngineeringModeMode engmode_of engmode_value
  /\ converts E_ChannelCoding coding_of coding_value /\ converts E_ChannelClass class_of class_value
  /\ converts E_ChannelBand band_of band_value /\ converts E_Bandwidth bandwidth_of bandwidth_value.
Proof.
  exact (conj c_idtype (conj c_nls (conj c_resp (conj c_retry (conj c_actcond (conj c_storage (conj c_qtype
    (conj c_comp (conj c_iftype (conj c_engmode (conj c_coding (conj c_class (conj c_band c_bandwidth))))))))))))).
Qed.
Print Assumptions C76_numbers_on_the_wire.

(** The names: which enumerations there are, the name of every member that has a
    number on the wire, and the ids of the system files. *)
Theorem C76_which : map (fun e => (e_module e, e_class e)) library_enums = enumerations.
Proof. exact which. Qed.
Print Assumptions C76_which.
Theorem C76_names :
  named E_IdType idtype_text idtype_value /\ named E_NlsMethod nls_text nls_value
  /\ named E_ResponseMode resp_text resp_value /\ named E_RetryMode retry_text retry_value
  /\ named E_ActionCondition actcond_text actcond_value /\ named E_StorageClass storage_text storage_value
  /\ named E_QueryType qtype_text qtype_value /\ named E_ArithComparisonType comp_text comp_value
  /\ named E_InterfaceType iftype_text iftype_value /\ named E_EngineeringModeMode engmode_text engmode_value
  /\ named E_ChannelCoding coding_text coding_value /\ named E_ChannelClass class_text class_value
  /\ named E_ChannelBand band_text band_value /\ named E_Bandwidth bandwidth_text bandwidth_value.
Proof.
  exact (conj n_idtype (conj n_nls (conj n_resp (conj n_retry (conj n_actcond (conj n_storage (conj n_qtype
    (conj n_comp (conj n_iftype (conj n_engmode (conj n_coding (conj n_class (conj n_band n_bandwidth))))))))))))).
Qed.
Print Assumptions C76_names.
Theorem C76_system_file_names : forall n id, declares E_SystemFileIds n id <->
  (exists f, system_file id = Some f /\ file_text f = Some n) \/ In (n, id) without_class.
Proof. exact ids_named. Qed.
Print Assumptions C76_system_file_names.

(** The two enumerations that have no field on the wire. *)
Theorem C76_names_off_the_wire : forall n v,
  (declares E_FrameType n v <-> In (n, v) frame_types) /\ (declares E_CsmaCaMode n v <-> In (n, v) csma_ca_modes).
Proof. exact off_the_wire. Qed.
Print Assumptions C76_names_off_the_wire.

(** [get_all_system_files]: every id that has a file, once, in increasing order,
    in whatever order the dict holds its keys. *)
Theorem C76_all_system_files : forall keys, NoDup keys -> (forall id, In id keys <-> system_file id <> None) ->
  StronglySorted Z.lt (all_system_files keys) /\ forall id, In id (all_system_files keys) <-> 0 <= id <= 46.
Proof. exact listing. Qed.
Print Assumptions C76_all_system_files.

(** Concrete cases. *)
Example C76_case :
  In E_InterfaceType library_enums /\ declares E_InterfaceType "D7ASP" 215
  /\ flatten E_InterfaceType 215 = mkPickled "d7a.alp.interface.InterfaceType" "D7ASP"
  /\ restore (mkPickled "d7a.alp.interface.InterfaceType" "D7ASP") = Some (Ok (VMember "InterfaceType" 215))
  /\ restore (mkPickled "d7a.alp.interface.InterfaceType" "D7ASQ") = Some (Err KeyError)
  /\ restore (mkPickled "InterfaceType" "D7ASP") = Some (Err ValueError).
Proof. repeat (split; [cbn; auto 10; fail|]). vm_compute. reflexivity. Qed.
(** the keys in decreasing order *)
Example C76_case_files :
  let keys := map (fun k => 46 - Z.of_nat k) (seq 0 47) in
  NoDup keys /\ (forall id, In id keys <-> system_file id <> None)
  /\ all_system_files keys = map Z.of_nat (seq 0 47).
Proof. exact decreasing_keys. Qed.
