(** Passing received commands on: property C99. *)
From Verif Require Import SRelay LRelay2.

(** The actions of a received command are accepted for a new one: it has the same
    actions, a tag of its own, and no status of its own *)
Theorem C99_made : forall rnd respond c, received c ->
  passed_on rnd respond c = Ok (mkCommand (c_actions c) None true (Some rnd) respond false None).
Proof. exact relay_made. Qed.
Print Assumptions C99_made.

(** and when each of them can be written, the next node receives the new tag and
    the same actions, up to the estimates in NBID addressees *)
Theorem C99_hop : forall rnd respond c, received c -> 0 <= rnd <= 255 -> Forall writable (c_actions c) ->
  exists d bs, passed_on rnd respond c = Ok d /\ command_ser d = Ok bs
  /\ accepts_aligned (alp_parse (zlen bs)) (bytes_bits bs)
       (mkCommand (map action_hop (c_actions c)) None false (Some rnd) respond false None).
Proof. exact relay_hop. Qed.
Print Assumptions C99_hop.
(** The actions arrive as they were for exactly these commands *)
Theorem C99_same_iff : forall c, received c ->
  ((exists c', hop c c' /\ c_actions c' = c_actions c) <-> Forall lasting (c_actions c)).
Proof. exact relay_same_iff. Qed.
Print Assumptions C99_same_iff.

(** A received forward action can be put in a command, which cannot be written *)
Theorem C99_forward : forall rnd respond c, received c -> 0 <= rnd <= 255 -> existsb is_forward (c_actions c) = true ->
  exists d, passed_on rnd respond c = Ok d /\ command_ser d = Err AttributeError.
Proof. exact relay_forward. Qed.
Print Assumptions C99_forward.

(** What arrives as it was does so after any number of hops *)
Theorem C99_hops : forall n c c', received c -> Forall lasting (c_actions c) -> hops n c c' -> c_actions c' = c_actions c.
Proof. exact relay_hops. Qed.
Print Assumptions C99_hops.
(** A command whose actions can be written can be passed on any number of times,
    and from the fourth hop on the byte of every NBID addressee that was above 31
    is 43 (an estimate of 44 devices) *)
Theorem C99_reach : forall n c, received c -> Forall writable (c_actions c) -> exists c', hops n c c'.
Proof. exact hops_exist. Qed.
Print Assumptions C99_reach.
Theorem C99_end : forall n c c', received c -> Forall writable (c_actions c) -> (4 <= n)%nat -> hops n c c' ->
  c_actions c' = map action_end (c_actions c).
Proof. exact relay_end. Qed.
Print Assumptions C99_end.

(** ** Cases *)
Definition overload (n : Z) : Action :=
  mkAction (IndFwdAct true false) (IndirectForward (mkIndirect 64 (Some (mkAddr 1 NBID (IdCT (of_nbid n)) NLS_NONE)))).
Definition reply (data : list Z) : Action :=
  mkAction (Regular false false) (ReturnFileData (mkData (mkOffset 64 (mkLength 0)) (mkLength (zlen data)) data) None).
Definition arrives (bs : list Z) (c : Command) : Prop := exists s', alp_parse (zlen bs) (stream_of bs) = Ok (c, s').
Lemma arrives_received bs c : arrives bs c -> received c.
Proof. intros (s' & E). exists (zlen bs), (stream_of bs), s'. split; [reflexivity | exact E]. Qed.

(** the hypotheses are met: a reply received with a tag, an indirect forward whose
    overload is for about 200 devices *)
Example C99_received : exists c1 c2,
  arrives [163; 9; 32; 64; 0; 1; 7] c1 /\ c_actions c1 = [reply [7]] /\ c_tag c1 = Some 9 /\ Forall lasting (c_actions c1)
  /\ arrives [179; 64; 0; 1; 200; 32; 64; 0; 1; 7] c2 /\ c_actions c2 = [overload 77; reply [7]]
  /\ Forall writable (c_actions c2) /\ ~ Forall lasting (c_actions c2) /\ received c1 /\ received c2.
Proof.
  eexists _, _.
  assert (A1 : arrives [163; 9; 32; 64; 0; 1; 7] (mkCommand [reply [7]] None false (Some 9) true true (Some false)))
    by (eexists; vm_compute; reflexivity).
  assert (A2 : arrives [179; 64; 0; 1; 200; 32; 64; 0; 1; 7] (mkCommand [overload 77; reply [7]] None false None true false None))
    by (eexists; vm_compute; reflexivity).
  refine (conj A1 (conj eq_refl (conj eq_refl (conj _ (conj A2 (conj eq_refl (conj _ (conj _ (conj (arrives_received _ _ A1) (arrives_received _ _ A2)))))))))).
  - repeat constructor; discriminate.
  - repeat constructor; discriminate.
  - intros F. apply Forall_inv in F as [_ [L | L]]; vm_compute in L; [apply L; reflexivity | discriminate].
Qed.
(** what was read from the byte 200 is an estimate of 208 devices; the estimates
    after each hop, and the actions: the fourth hop is needed *)
Example C99_estimates :
  map (fun n => ct_int (of_nbid (Nat.iter n nbid_hop 77))) [0; 1; 2; 3; 4; 5]%nat = [208; 80; 52; 48; 44; 44]
  /\ map (fun n => Nat.iter n action_hop (overload 77)) [0; 1; 2; 3; 4; 5]%nat
     = [overload 77; overload 52; overload 45; overload 44; overload 43; overload 43]
  /\ action_end (overload 77) = overload 43 /\ nbid_hop 200 = 77.
Proof. repeat split; reflexivity. Qed.
(** a received forward, and a received reply without data: the first cannot be
    written, the second is written without its operand *)
Example C99_unwritable : exists c1 c2 d,
  arrives [50; 215; 0; 0; 16; 1] c1 /\ existsb is_forward (c_actions c1) = true
  /\ arrives [32; 64; 0; 0] c2 /\ c_actions c2 = [reply []] /\ ~ Forall lasting (c_actions c2)
  /\ passed_on 9 true c2 = Ok d /\ command_ser d = Ok [180; 9; 32] /\ (forall c', ~ arrives [180; 9; 32] c').
Proof.
  eexists _, _, _. refine (conj _ (conj _ (conj _ (conj _ (conj _ (conj _ (conj _ _))))))).
  - eexists. vm_compute. reflexivity.
  - reflexivity.
  - eexists. vm_compute. reflexivity.
  - reflexivity.
  - intros F. apply Forall_inv in F as [W _]. apply W. reflexivity.
  - vm_compute. reflexivity.
  - vm_compute. reflexivity.
  - intros c' (s' & E). vm_compute in E. discriminate.
Qed.
