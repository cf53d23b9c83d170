From Coq Require Import Ascii String ZifyBool ZifyNat.
From Verif Require Import MBase MCt MPhy MSp MFs MProfile MOperands MSysFiles MAlp MDll MAsDict MPrint SAsDict SPrint LParsed LAsDict.
Open Scope string_scope.
Open Scope Z_scope.

(** ** the definition of [tree], unfolded once *)
Definition subs (l : list (string * Value)) : list (string * Tree) := map (fun e => (fst e, tree (snd e))) l.
Lemma tree_obj c l : tree (PObj c l) = T (PObj c l) (method (PObj c l) c (subs l)) (subs l) [].
Proof.
  cbn [tree]. set (g := (fix go (l : list (string * Value)) : list (string * Tree) := _)).
  assert (G : g l = subs l).
  { unfold subs. induction l as [|[k x] r IH]; [reflexivity|]. cbn. f_equal. exact IH. }
  rewrite G. reflexivity.
Qed.
Lemma str_obj c l : str (PObj c l) = method (PObj c l) c (subs l).
Proof. unfold str. rewrite tree_obj. reflexivity. Qed.
Lemma attr_subs k l : attr k (subs l) = match entry k l with Some v => Ok (tree v) | None => Err AttributeError end.
Proof. induction l as [|[n x] r IH]; cbn; [reflexivity|]. destruct (String.eqb n k); [reflexivity | exact IH]. Qed.
Lemma value_tree v : value_of (tree v) = v.
Proof. destruct v; reflexivity. Qed.

(** ** the fields of a filled format *)
Fixpoint ifields (l : list Item) : list (string * Item) :=
  match l with
  | L s :: (x :: _) as r => match label s with Some n => (n, x) :: ifields r | None => ifields r end
  | _ :: r => ifields r
  | [] => []
  end.
Lemma band_word_cases z : band_word z = "OT_IMPL" \/ band_word z = "433" \/ band_word z = "868" \/ band_word z = "915" \/ band_word z = "".
Proof. unfold band_word, band_of. repeat destruct (_ =? _); vm_compute; tauto. Qed.
Lemma word_label w z : label (word w z) = None.
Proof.
  destruct w; cbn [word].
  - destruct (band_word_cases z) as [E|[E|[E|[E|E]]]]; rewrite E; reflexivity.
  - unfold class_word, class_of. repeat destruct (_ =? _); reflexivity.
  - unfold coding_word, coding_of. repeat destruct (_ =? _); reflexivity.
  - unfold bandwidth_word. repeat destruct (_ =? _); reflexivity.
  - unfold mode_word. repeat destruct (_ =? _); reflexivity.
Qed.
Lemma fields_skip s t : (forall l, s = Lit l -> label l = None) -> fields (s :: t) = fields t.
Proof. intros H. destruct s; try reflexivity. cbn [fields]. rewrite (H _ eq_refl). destruct t; reflexivity. Qed.
Lemma fill_fields attrs items : forall t, fill attrs items = Ok t ->
  Forall2 (fun a b => fst a = fst b /\ fill_one attrs (snd a) = Ok (snd b)) (ifields items) (fields t).
Proof.
  induction items as [|i r IH]; intros t; cbn [fill]; [intros [= <-]; constructor|].
  destruct (fill_one attrs i) as [s|] eqn:E; cbn [rbind]; [|discriminate].
  destruct (fill attrs r) as [t'|] eqn:E'; cbn [rbind]; [|discriminate]. intros [= <-]. specialize (IH _ eq_refl).
  destruct i as [l|k|k|k|w k].
  - injection E as <-. destruct r as [|j r'].
    + injection E' as <-. cbn [ifields]. constructor.
    + cbn [fill] in E'. destruct (fill_one attrs j) as [s|] eqn:Ej; cbn [rbind] in E'; [|discriminate].
      destruct (fill attrs r') as [t|]; cbn [rbind] in E'; [|discriminate]. injection E' as <-.
      change (ifields (L l :: j :: r')) with (match label l with Some n => (n, j) :: ifields (j :: r') | None => ifields (j :: r') end).
      change (fields (Lit l :: s :: t)) with (match label l with Some n => (n, s) :: fields (s :: t) | None => fields (s :: t) end).
      destruct (label l); [constructor; [split; [reflexivity | exact Ej] | exact IH] | exact IH].
  - rewrite fields_skip; [exact IH|]. cbn [fill_one] in E. destruct (attr k attrs) as [x|]; cbn [rbind] in E; [|discriminate].
    destruct (text_of x); cbn [rbind] in E; [|discriminate]. injection E as <-. discriminate.
  - rewrite fields_skip; [exact IH|]. cbn [fill_one] in E. destruct (attr k attrs) as [x|]; cbn [rbind] in E; [|discriminate].
    destruct (value_of x); try discriminate. injection E as <-. discriminate.
  - rewrite fields_skip; [exact IH|]. cbn [fill_one] in E. destruct (attr k attrs) as [x|]; cbn [rbind] in E; [|discriminate].
    destruct (value_of x); try discriminate. injection E as <-. discriminate.
  - rewrite fields_skip; [exact IH|]. cbn [fill_one] in E. destruct (attr k attrs) as [x|]; cbn [rbind] in E; [|discriminate].
    destruct (value_of x); try discriminate. injection E as <-. intros m [= <-]. apply word_label.
Qed.

(** ** the table is right: every name in it stands before the attribute it means *)
Definition word_of_attr (w : Word) (k : string) : bool :=
  match w with
  | WBand => String.eqb k "channel_band" | WBandwidth => String.eqb k "channel_bandwidth" | WMode => String.eqb k "mode"
  | _ => false
  end.
Definition item_ok (cls : string) (e : string * Item) : bool :=
  match snd e with
  | A k | AHex k => String.eqb k (meaning cls (fst e))
  | AWord w k => String.eqb k (meaning cls (fst e)) && word_of_attr w k
  | _ => false
  end.
Definition table_ok : bool :=
  forallb (fun e => match format_of (fst e) formats with Some items => forallb (item_ok (fst e)) (ifields items) | None => false end) labelled.
Lemma table_is_ok : table_ok = true. Proof. vm_compute. reflexivity. Qed.
Lemma word_right w k z : word_of_attr w k = true -> word_for k z <> None -> word_for k z = Some (word w z).
Proof.
  destruct w; cbn [word_of_attr]; try discriminate; intros H; apply String.eqb_eq in H; subst k; unfold word_for; cbn.
  - unfold band_word, band_of. repeat (destruct (_ =? _); [intros _; vm_compute; reflexivity|]). congruence.
  - unfold bandwidth_word. destruct (z =? 0) eqn:E; [|destruct (z =? 1); [reflexivity | congruence]].
    intros _. replace (z =? 1) with false by lia. reflexivity.
  - unfold mode_word. repeat (destruct (_ =? _); [intros _; reflexivity|]). congruence.
Qed.
Definition words_known (l : list (string * Value)) : Prop :=
  forall k e z, entry k l = Some (PMember e z) -> In k ["channel_band"; "channel_bandwidth"; "mode"] -> word_for k z <> None.
Lemma left_out_in cls h : left_out cls = Some h -> In (cls, h) labelled.
Proof.
  unfold left_out. generalize labelled. intros l. induction l as [|[c x] r IH]; cbn; [discriminate|].
  destruct (String.eqb c cls) eqn:E; [|auto]. apply String.eqb_eq in E. subst. intros [= ->]. auto.
Qed.
Lemma labels_true cls hidden l t : left_out cls = Some hidden -> words_known l -> str (PObj cls l) = Ok t ->
  forall name s, In (name, s) (fields t) -> exists v, entry (meaning cls name) l = Some v /\ shows (meaning cls name) v s.
Proof.
  intros Hl Hw Hs name s Hin. rewrite str_obj in Hs.
  pose proof table_is_ok as Ht. unfold table_ok in Ht. rewrite forallb_forall in Ht. specialize (Ht _ (left_out_in _ _ Hl)). cbn [fst] in Ht.
  unfold method in Hs. destruct (format_of cls formats) as [items|]; [|discriminate].
  pose proof (fill_fields _ _ _ Hs) as F. clear Hs Hl.
  induction F as [|[n i] [n' s'] a b [E1 E2] _ IH]; [destruct Hin|].
  cbn [forallb] in Ht. apply andb_prop in Ht as [Ht1 Ht2]. destruct Hin as [Hin|Hin]; [|apply IH; assumption].
  injection Hin as -> ->. cbn [fst snd] in *. subst n. unfold item_ok in Ht1. cbn [fst snd] in Ht1.
  destruct i as [x|k|k|k|w k]; try discriminate.
  - apply String.eqb_eq in Ht1. subst k. cbn [fill_one] in E2. rewrite attr_subs in E2.
    destruct (entry _ l) as [v|]; cbn [rbind] in E2; [|discriminate]. destruct (text_of (tree v)) eqn:Ev; cbn [rbind] in E2; [|discriminate].
    injection E2 as <-. exists v. split; [reflexivity | exact Ev].
  - apply String.eqb_eq in Ht1. subst k. cbn [fill_one] in E2. rewrite attr_subs in E2.
    destruct (entry _ l) as [v|]; cbn [rbind] in E2; [|discriminate]. rewrite value_tree in E2. destruct v; try discriminate.
    injection E2 as <-. eexists. split; reflexivity.
  - apply andb_prop in Ht1 as [Ht1 Hk]. apply String.eqb_eq in Ht1. rewrite <- Ht1. cbn [fill_one] in E2. rewrite attr_subs in E2.
    destruct (entry k l) as [v|] eqn:Ek; cbn [rbind] in E2; [|discriminate]. rewrite value_tree in E2. destruct v; try discriminate.
    injection E2 as <-. eexists. split; [reflexivity|]. do 2 eexists. split; [reflexivity|].
    apply word_right; [exact Hk|]. eapply Hw; [exact Ek|].
    destruct w; cbn [word_of_attr] in Hk; try discriminate; apply String.eqb_eq in Hk; subst k; simpl; auto.
Qed.
Lemma fields_complete cls hidden l t items : left_out cls = Some hidden -> format_of cls formats = Some items -> str (PObj cls l) = Ok t ->
  forall k, In k (map (fun e => meaning cls (fst e)) (ifields items)) -> exists name s, In (name, s) (fields t) /\ meaning cls name = k.
Proof.
  intros Hl E Hs k Hk. rewrite str_obj in Hs. unfold method in Hs. rewrite E in Hs.
  pose proof (fill_fields _ _ _ Hs) as F. clear Hs E. apply in_map_iff in Hk as ([n i] & Hk & Hin). cbn [fst] in Hk.
  induction F as [|[n1 i1] [n2 s2] a b [E1 E2] _ IH]; [destruct Hin|]. destruct Hin as [Hin|Hin].
  - injection Hin as -> ->. cbn [fst] in E1. subst n2. exists n, s2. split; [left; reflexivity | exact Hk].
  - destruct (IH Hin) as (nn & ss & I1 & I2). exists nn, ss. split; [right; exact I1 | exact I2].
Qed.

(** ** the parts *)
Ltac known := let k := fresh "k" in let e := fresh "e" in let z := fresh "z" in let H := fresh "H" in intros k e z H [<-|[<-|[<-|[]]]]; cbn in H; try discriminate; injection H as <- <-;
  repeat match goal with |- context [match ?x with _ => _ end] => is_var x; destruct x end; cbn; discriminate.
Lemma part_words p : words_known (attributes (part_value p)).
Proof.
  destruct p as [x|x|x|x|x|x|x|x|x|x|x|x|x|x|x|x|x]; cbn [part_value]; try (known; fail).
  - intros k e z H I. cbn [o_csi attributes] in H. destruct x as [b w i]. cbn [csi_band csi_bandwidth csi_index] in H.
    destruct I as [<-|[<-|[<-|[]]]]; cbn in H; try discriminate; injection H as <- <-; [destruct b | destruct w]; discriminate.
  - destruct x; cbn [o_file]; try (known; fail).
    + intros k e z H I. destruct f as [m fl ti ch ei]. cbn [em_mode em_flags em_timeout em_channel em_eirp attributes] in H.
      destruct I as [<-|[<-|[<-|[]]]]; cbn in H; try discriminate. injection H as <- <-. destruct m; discriminate.
    + destruct (icf_length f) as [len|er]; known.
Qed.
Lemma part_labels p t hidden : left_out (class_name_of (part_value p)) = Some hidden -> str (part_value p) = Ok t ->
  forall name s, In (name, s) (fields t) ->
    exists v, entry (meaning (class_name_of (part_value p)) name) (attributes (part_value p)) = Some v
              /\ shows (meaning (class_name_of (part_value p)) name) v s.
Proof.
  intros Hl Hs name s Hin. pose proof (part_words p) as W. destruct (part_value p) eqn:E; cbn [class_name_of attributes] in *;
    try (vm_compute in Hl; discriminate).
  eapply labels_true; eassumption.
Qed.
Definition covered (cls : string) (hidden names : list string) : bool :=
  match format_of cls formats with
  | Some items => forallb (fun k => has k hidden || has k (map (fun e => meaning cls (fst e)) (ifields items))) names
  | None => false
  end.
Lemma has_in k l : has k l = true -> In k l.
Proof. unfold has. intros H. apply existsb_exists in H as (x & I & E). apply String.eqb_eq in E. subst. exact I. Qed.
Lemma part_covered p hidden : left_out (class_name_of (part_value p)) = Some hidden ->
  covered (class_name_of (part_value p)) hidden (map fst (attributes (part_value p))) = true.
Proof.
  intros Hl.
  assert (G : forall c l h, left_out c = Some hidden -> left_out c = Some h -> covered c h (map fst l) = true ->
              covered c hidden (map (@fst string Value) l) = true).
  { intros c l h E1 E2. rewrite E1 in E2. injection E2 as ->. auto. }
  destruct p as [x|x|x|x|x|x|x|x|x|x|x|x|x|x|x|x|x]; cbn [part_value] in *;
    try (eapply G; [exact Hl | vm_compute; reflexivity | vm_compute; reflexivity]).
  destruct x; cbn [o_file] in *; try (vm_compute in Hl; discriminate);
    try (eapply G; [exact Hl | vm_compute; reflexivity | vm_compute; reflexivity]).
  destruct (icf_length f); (eapply G; [exact Hl | vm_compute; reflexivity | vm_compute; reflexivity]).
Qed.
Lemma part_complete p t hidden : left_out (class_name_of (part_value p)) = Some hidden -> str (part_value p) = Ok t ->
  forall k, In k (map fst (attributes (part_value p))) -> ~ In k hidden ->
    exists name s, In (name, s) (fields t) /\ meaning (class_name_of (part_value p)) name = k.
Proof.
  intros Hl Hs k Hk Hn. pose proof (part_covered _ _ Hl) as C. unfold covered in C.
  destruct (format_of _ formats) as [items|] eqn:E; [|discriminate]. rewrite forallb_forall in C. specialize (C _ Hk).
  apply orb_prop in C as [C|C]; apply has_in in C; [contradiction|].
  destruct (part_value p) eqn:Ep; cbn [class_name_of] in *;
    try (vm_compute in Hl; discriminate).
  eapply fields_complete; eassumption.
Qed.
