(** Lemmas for C63: the classes that constructors demand. *)
From Coq Require Import String.
From Verif Require Import SDemand.
From Coq Require Import List Arith.
Import ListNotations.
Open Scope string_scope.
Open Scope list_scope.

Lemma demand_sweep : forallb (fun e => forallb (fun k => match demanded k with
    | None => true
    | Some n => existsb (String.eqb n) (map (fun d => cd_name (fst d)) documented ++ others) end) (snd e)) documented = true.
Proof. vm_compute. reflexivity. Qed.
Lemma demand_met c kinds k n : In (c, kinds) documented -> In k kinds -> demanded k = Some n ->
  (exists d kinds', In (d, kinds') documented /\ cd_name d = n) \/ In n others.
Proof.
  intros H I D. pose proof demand_sweep as S. rewrite forallb_forall in S. specialize (S _ H). cbn [snd] in S. rewrite forallb_forall in S. specialize (S _ I).
  rewrite D in S. apply existsb_exists in S as (m & J & E). apply String.eqb_eq in E. subst m. apply in_app_or in J as [J|J]; [left | right; exact J].
  apply in_map_iff in J as ((d & ks) & E & J). exists d, ks. split; [exact J | exact E].
Qed.
Lemma names_distinct : forall c kinds d kinds', In (c, kinds) documented -> In (d, kinds') documented -> cd_name c = cd_name d -> c = d.
Proof.
  assert (N : NoDup (map (fun e => cd_name (fst e)) documented)).
  { apply (NoDup_count_occ' string_dec). intros x I. revert x I. apply Forall_forall.
    assert (F : forallb (fun x => Nat.eqb (count_occ string_dec (map (fun e => cd_name (fst e)) documented) x) 1) (map (fun e => cd_name (fst e)) documented) = true) by (vm_compute; reflexivity).
    apply Forall_forall. intros x I. rewrite forallb_forall in F. apply Nat.eqb_eq, F, I. }
  revert N. generalize documented as l. induction l as [|(e & ke) l IH]; intros N c kc d kd I J E; [destruct I|].
  cbn [map] in N. inversion_clear N as [|? ? N1 N2]. cbn [fst] in N1. destruct I as [I|I], J as [J|J].
  - congruence.
  - injection I as -> ->. exfalso. apply N1. rewrite E. apply (in_map (fun e => cd_name (fst e)) l (d, kd)), J.
  - injection J as -> ->. exfalso. apply N1. rewrite <- E. apply (in_map (fun e => cd_name (fst e)) l (c, kc)), I.
  - apply (IH N2 _ _ _ _ I J E).
Qed.
