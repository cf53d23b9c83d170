From Coq Require Import ZifyBool ZifyNat.
From Verif Require Import LContent STable.

(** ** The table as it is *)
Definition table_check (id : Z) : bool :=
  match system_file id, table_content id with
  | Some f, Some bs => match file_ser f with Ok l => if list_eq_dec Z.eq_dec l bs then true else false | Err _ => false end
  | Some (F_AccessProfile p), None => match file_ser (F_AccessProfile p) with Err TypeError => true | _ => false end
  | Some (F_NotImpl None n), None => match file_ser (F_NotImpl None n) with Ok l => if list_eq_dec Z.eq_dec l (zeros (Z.to_nat (ni_length n))) then true else false | Err _ => false end
  | _, _ => false
  end.
Lemma table_checked : forallb table_check (map Z.of_nat (seq 0 47)) = true.
Proof. vm_compute. reflexivity. Qed.
Lemma table_check_at id f : system_file id = Some f -> table_check id = true.
Proof.
  intro E. assert (R : 0 <= id <= 46) by (apply system_file_small; congruence).
  pose proof table_checked as T. rewrite forallb_forall in T. apply T. apply in_map_iff. exists (Z.to_nat id). split; [lia|]. apply in_seq. lia.
Qed.
Lemma table_contents id f : system_file id = Some f ->
  match table_content id with
  | Some bs => file_ser f = Ok bs
  | None => (exists p, f = F_AccessProfile p /\ file_ser f = Err TypeError)
            \/ (exists n, f = F_NotImpl None n /\ file_ser f = Ok (zeros (Z.to_nat (ni_length n))))
  end.
Proof.
  intro E. pose proof (table_check_at id f E) as T. unfold table_check in T. rewrite E in T.
  destruct (table_content id) as [bs|].
  - assert (match file_ser f with Ok l => if list_eq_dec Z.eq_dec l bs then true else false | Err _ => false end = true) as X.
    { destruct f; exact T || (destruct id0; exact T). }
    destruct (file_ser f) as [l|]; [|discriminate]. destruct (list_eq_dec Z.eq_dec l bs); congruence.
  - destruct f; try discriminate.
    + left. eexists. split; [reflexivity|]. destruct (file_ser _) as [|[]]; congruence.
    + right. destruct id0; [discriminate|]. eexists. split; [reflexivity|]. destruct (file_ser _) as [l|]; [|discriminate].
      destruct (list_eq_dec _ _ _); congruence.
Qed.
Lemma table_written id f bs rnd t conf : system_file id = Some f -> table_content id = Some bs -> 0 <= rnd <= 255 -> conf_ok t conf ->
  creates (create_write_sys rnd f t conf) rnd t conf
    (act_bits false false (WriteFileData (mkData (mkOffset id (mkLength 0)) (mkLength (zlen bs)) bs))).
Proof.
  intros E C R Co. pose proof (table_contents id f E) as T. rewrite C in T. destruct (table_ids id f E) as [I (n & N & _)].
  assert (B : 0 <= id <= 46) by (apply system_file_small; congruence).
  assert (Z' : zlen bs <= 56 /\ bs <> []).
  { unfold table_content in C. destruct id as [|p|p]; [|repeat (destruct p as [p|p|]; try discriminate)|discriminate]; injection C as <-; vm_compute; split; discriminate. }
  destruct Z' as [Lb Nb]. assert (I' : sys_id f = Some id).
  { destruct I as [I|[_ [m ->]]]; [exact I|]. exfalso. pose proof (table_check_at id _ E) as X. unfold table_check in X. rewrite E, C in X. clear - E C B.
    unfold system_file, not_impl in E. unfold table_content in C.
    destruct id as [|p|p]; [|repeat (destruct p as [p|p|]; try discriminate)|discriminate]; discriminate E. }
  apply (create_write_sys_ok rnd f t conf id n bs); auto; unfold len_max; lia.
Qed.
Lemma table_not_written id f rnd t conf : system_file id = Some f -> table_content id = None -> conf = None \/ t <> IF_HOST ->
  create_write_sys rnd f t conf = Err (if id <? 32 then ValueError else TypeError).
Proof.
  intros E C Co. pose proof (table_contents id f E) as T. rewrite C in T. pose proof (system_file_cases id f E) as K.
  destruct (table_ids id f E) as [I (n & N & _)]. assert (B : 0 <= id <= 46) by (apply system_file_small; congruence).
  destruct T as [(p & -> & S)|(m & -> & S)].
  - destruct I as [I|[I _]]; [|discriminate]. rewrite (create_sys_unserializable rnd _ t conf TypeError id n I ltac:(lia) N S Co).
    cbn in K. replace (id <? 32) with false by lia. reflexivity.
  - rewrite (proj2 (create_sys_enum rnd m t conf)). cbn in K. replace (id <? 32) with true by lia. reflexivity.
Qed.
