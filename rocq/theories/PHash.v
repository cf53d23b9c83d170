(** C80: equal objects in lists, sets and dicts. *)
From Coq Require Import Lia.
From Verif Require Import MBase MFs MOperands MEq SEq SHash LHash LHash2.
Open Scope Z_scope.

(** In a list an object is found by value... *)
Theorem C80_list_by_value : forall l t, coherent (t :: l) ->
  list_has l t = true <-> exists u, In u l /\ py_eq (t_value u) (t_value t) = true.
Proof. exact by_value. Qed.
Print Assumptions C80_list_by_value.
(** ...in a set (or as a key of a dict) only if it is that very object, apart
    from a length whose address happens to have the hash of the int it equals. *)
Theorem C80_set_by_identity : forall big s t, coherent (t :: s) -> an_object t ->
  set_has big s t = true <-> exists u, In u s /\ (an_object u /\ t_addr u = t_addr t \/ accident big t u).
Proof. exact set_object. Qed.
Print Assumptions C80_set_by_identity.
(** Numbers are found by value, and lengths only by the same accident. *)
Theorem C80_set_numbers : forall big s t b z, coherent (t :: s) -> t_value t = VNumber b z ->
  set_has big s t = true <-> exists u, In u s /\ ((exists b', t_value u = VNumber b' z) \/ accident big u t).
Proof. exact set_number. Qed.
Print Assumptions C80_set_numbers.

(** A set made from a list of objects has one entry for each object, however many
    of them are equal. *)
Theorem C80_entries : forall big l, coherent l -> Forall an_object l ->
  NoDup (map t_addr (set_of big l)) /\ forall a, In a (map t_addr (set_of big l)) <-> In a (map t_addr l).
Proof. exact set_of_objects. Qed.
Print Assumptions C80_entries.

(** A dict gives what was stored last under the same number or the same object,
    and stores nothing under any other key. *)
Theorem C80_dict : forall (V : Type) big (d : list (Thing * V)) t v u,
  coherent (t :: u :: keys d) -> no_accident big (t :: u :: keys d) ->
  (one_key t u -> dict_get big (dict_put big d t v) u = Some v) /\
  (~ one_key t u -> dict_get big (dict_put big d t v) u = dict_get big d u).
Proof. exact @get_put. Qed.
Print Assumptions C80_dict.

(** An object in a set is found again after any change of its attributes. *)
Theorem C80_found_after_change : forall big s t a v,
  coherent (t :: s) -> an_object t -> Forall an_object s -> has_ne v ->
  set_has big (map (changed a v) s) (changed a v t) = set_has big s t.
Proof. exact found_again. Qed.
Print Assumptions C80_found_after_change.

(** The expectation that [t in set(l)] agrees with [t in l] is refuted, also for
    two objects of one class with the same bytes... *)
Theorem C80_set_as_list_refuted : ~ (forall big l t, coherent (t :: l) -> list_has l t = true -> set_has big (set_of big l) t = true).
Proof.
  intros H. specialize (H (fun z => z) [mkThing 160 (VLength (mkLength 5))] (mkThing 320 (VLength (mkLength 5)))).
  assert (false = true) as F; [|discriminate]. apply H; [|reflexivity].
  refine (conj _ (conj _ _)); cbn.
  - intros t [<-|[<-|[]]]; unfold address; cbn; lia.
  - intros t u [<-|[<-|[]]] [<-|[<-|[]]]; reflexivity.
  - intros t u i [<-|[<-|[]]] [<-|[<-|[]]]; discriminate.
Qed.
Print Assumptions C80_set_as_list_refuted.
(** ...and whether a length is found among ints depends on where it is in memory. *)
Theorem C80_address_refuted : exists big s v a b, coherent (mkThing a v :: mkThing b v :: s) /\
  set_has big s (mkThing a v) = true /\ set_has big s (mkThing b v) = false.
Proof.
  exists (fun z => z), [mkThing 800 (VNumber false 2097152)], (VLength (mkLength 2097152)), 33554432, 33554448.
  split; [|split; reflexivity].
  refine (conj _ (conj _ _)); cbn.
  - intros t [<-|[<-|[<-|[]]]]; unfold address; cbn; lia.
  - intros t u [<-|[<-|[<-|[]]]] [<-|[<-|[<-|[]]]]; cbn; intros E; (reflexivity || lia).
  - intros t u i [<-|[<-|[<-|[]]]] [<-|[<-|[<-|[]]]]; discriminate.
Qed.
Print Assumptions C80_address_refuted.

(** Two equal permissions and an int among the keys. *)
Example C80_case :
  let p := VFilePermissions (mkPerm true false true true false true false true) in
  let a := mkThing 160 p in let b := mkThing 320 p in let n := mkThing 480 (VNumber false 7) in
  coherent [a; b; n] /\ no_accident (fun z => z) [a; b; n] /\
  list_has [a] b = true /\ set_has (fun z => z) [a; n] b = false /\ zlen (set_of (fun z => z) [a; b; a; n]) = 3 /\
  dict_get (fun z => z) (dict_put (fun z => z) [(n, 1)] a 2) b = None.
Proof.
  cbv zeta. split; [|split; [|repeat split; reflexivity]].
  - refine (conj _ (conj _ _)); cbn.
    + intros t [<-|[<-|[<-|[]]]]; unfold address; cbn; lia.
    + intros t u [<-|[<-|[<-|[]]]] [<-|[<-|[<-|[]]]]; cbn; intros E; (reflexivity || lia).
    + intros t u i [<-|[<-|[<-|[]]]] [<-|[<-|[<-|[]]]]; discriminate.
  - intros t u [<-|[<-|[<-|[]]]] _ (l & E & _); discriminate.
Qed.
