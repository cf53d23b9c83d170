(** Lemmas for C39: text that is not ASCII. *)
From Coq Require Import Lia ZifyBool ZifyNat.
From Verif Require Import MBase MSysFiles SFiles LBits LParse LFiles LSerial.
Open Scope Z_scope.

Lemma not_ascii l : ~ Forall (fun c => 0 <= c <= 127) l -> ascii_only l = Err UnicodeError.
Proof.
  intros N. unfold ascii_only. destruct (forallb _ l) eqn:E; [|reflexivity]. destruct N. apply Forall_forall.
  intros x I. rewrite forallb_forall in E. specialize (E x I). unfold in_range in E. lia.
Qed.
Lemma ascii_dec l : Forall (fun c => 0 <= c <= 127) l \/ ~ Forall (fun c => 0 <= c <= 127) l.
Proof.
  destruct (forallb (fun c => (0 <=? c) && (c <=? 127)) l) eqn:E.
  - left. apply Forall_forall. intros x I. rewrite forallb_forall in E. specialize (E x I). lia.
  - right. intros F. rewrite Forall_forall in F.
    assert (forallb (fun c => (0 <=? c) && (c <=? 127)) l = true) by (apply forallb_forall; intros x I; specialize (F x I); lia). congruence.
Qed.
Lemma fw_parse_text p a b c d app git rest : Forall is_byte [a; b; c; d] -> Forall is_byte app -> Forall is_byte git ->
  length app = 6%nat -> length git = 7%nat -> ~ Forall (fun c => c <= 127) (app ++ git) ->
  fw_parse (St p (bytes_bits ([a; b; c; d] ++ app ++ git ++ rest))) = Err UnicodeError.
Proof.
  intros V FA FG LA LG N. cbn [List.app].
  assert (is_byte a /\ is_byte b /\ is_byte c /\ is_byte d) as (A & B & C & D).
  { repeat match goal with H : Forall _ (_ :: _) |- _ => apply Forall_cons_iff in H as [? H] end. auto. }
  unfold fw_parse, bindp. do 4 (rewrite read_byte by assumption; cbv beta iota).
  assert (X : forall q l r, Forall is_byte l -> read_bytes (zlen l) (St q (bytes_bits (l ++ r))) = Ok (l, St (q + 8 * length l) (bytes_bits r)))
    by (intros; apply read_bytes_app; assumption).
  replace 6 with (zlen app) by (unfold zlen; lia). rewrite X by assumption. cbv beta iota.
  destruct (ascii_dec app) as [P|P].
  - rewrite ascii_ok by exact P. cbn [lift]. replace 7 with (zlen git) by (unfold zlen; lia). rewrite X by assumption. cbv beta iota.
    rewrite not_ascii; [reflexivity|]. intros Q. apply N. apply Forall_app. split; (eapply Forall_impl; [|eassumption]; cbn; lia).
  - rewrite not_ascii by exact P. reflexivity.
Qed.
Lemma fw_ser_text f : Forall byte_ok [fw_major f; fw_minor f; fw_fs_major f; fw_fs_minor f] ->
  ~ Forall (fun c => 0 <= c <= 127) (fw_app f ++ fw_git f) -> fw_ser f = Err UnicodeError.
Proof.
  intros V N. unfold fw_ser.
  assert (Y : forall v, byte_ok v -> yield1 v = Ok [v]).
  { intros v H. unfold yield1. unfold byte_ok in H. replace ((0 <=? v) && (v <=? 255)) with true by lia. reflexivity. }
  repeat match goal with H : Forall _ (_ :: _) |- _ => apply Forall_cons_iff in H as [? H] end.
  rewrite !Y by assumption. unfold rapp, rbind.
  destruct (ascii_dec (fw_app f)) as [P|P].
  - assert (~ Forall (fun c => 0 <= c <= 127) (fw_git f)) as Q by (intros Q; apply N; apply Forall_app; auto).
    rewrite (not_ascii _ Q). rewrite ascii_ok by exact P.
    destruct (yields (ljust 6 (fw_app f))) as [w|e] eqn:W; [reflexivity|].
    exfalso. revert W. unfold ljust. pose proof (emits_yields (padded 6 (fw_app f)) (ascii_byte _ (padded_bytes _ _ P))) as [w [W _]].
    unfold padded in W. intros W'. congruence.
  - rewrite (not_ascii _ P). reflexivity.
Qed.
