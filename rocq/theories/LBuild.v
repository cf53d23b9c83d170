From Coq Require Import ZifyBool ZifyNat.
From Verif Require Import SBuild LReser LAlpCases LCommand.
Ltac Zify.zify_post_hook ::= Z.div_mod_to_equations.

Lemma call_effect c k : fst (call c k) = with_actions c (c_actions c ++ added k)
  /\ snd (call c k) = if refused k then Some ValueError else None.
Proof.
  assert (N : c = with_actions c (c_actions c ++ [])) by (rewrite app_nil_r; destruct c; reflexivity).
  destruct k as [a|t conf|file o conf].
  - split; reflexivity.
  - destruct t; try (split; reflexivity); destruct conf; split; try reflexivity; exact N.
  - unfold call, add_indirect_forward_action, added, refused, mk_indirect, validated, in_range.
    destruct (_ && _); cbn [rbind negb fst snd]; split; try reflexivity. exact N.
Qed.
Lemma calls_effect l : forall c, fst (calls c l) = with_actions c (c_actions c ++ flat_map added l)
  /\ snd (calls c l) = map (fun k => if refused k then Some ValueError else None) l.
Proof.
  induction l as [|k r IH]; intros c; cbn [calls flat_map map].
  - split; [|reflexivity]. rewrite app_nil_r. destruct c; reflexivity.
  - destruct (call_effect c k) as [E1 E2]. destruct (call c k) as [c1 e]. cbn [fst snd] in E1, E2.
    destruct (IH c1) as [E3 E4]. destruct (calls c1 r) as [c2 es]. cbn [fst snd] in *. subst. split; [|reflexivity].
    cbn [with_actions c_actions c_status c_generate c_tag c_respond c_completed c_error]. rewrite app_assoc. reflexivity.
Qed.

(** the constructor does the same as adding one by one *)
Lemma loop_plain l : forall c bad, forallb plain l = true ->
  command_loop (map Some l) c bad = Ok (with_actions c (c_actions c ++ l), bad).
Proof.
  induction l as [|a r IH]; intros c bad H; cbn [map command_loop].
  - rewrite app_nil_r. destruct c; reflexivity.
  - cbn [forallb] in H. apply andb_prop in H as [Ha Hr].
    assert (E : add_init c a = Ok (with_actions c (c_actions c ++ [a]))).
    { unfold add_init, plain, is_tag, is_status in *. destruct (a_kind a) as [| | |e| |]; try reflexivity; try discriminate.
      destruct e as [|p|p]; try reflexivity. destruct p; try reflexivity. discriminate. }
    rewrite E. cbn [rbind]. rewrite IH by exact Hr. cbn. rewrite <- app_assoc. reflexivity.
Qed.
Lemma constructor_same rnd l g t r : forallb plain l = true ->
  exists c, mk_command rnd [] g t r = Ok c /\ mk_command rnd (map Some l) g t r = Ok (fst (calls c (map AddAction l))).
Proof.
  intros H. unfold mk_command. rewrite loop_plain by exact H. cbn [command_loop rbind with_actions c_actions c_tag c_status c_respond c_completed c_error c_generate app].
  assert (F : flat_map added (map AddAction l) = l) by (clear; induction l as [|a l IH]; cbn; [reflexivity | f_equal; exact IH]).
  eexists. split; [reflexivity|]. rewrite (proj1 (calls_effect _ _)), F. destruct g, t; reflexivity.
Qed.

(** the bytes *)
Lemma call_ok_added k : call_ok k -> Forall action_wf (added k) /\ forallb plain (added k) = true
  /\ flat_map action_layout (added k) = call_bits k.
Proof.
  destruct k as [a|t conf|file o conf]; unfold added, call_ok; cbn [refused].
  - intros [W P]. repeat split; [constructor; [exact W | constructor] | cbn; rewrite P; reflexivity | cbn; apply app_nil_r].
  - intros [C S]. cbn [call_bits]. unfold forward_bits.
    assert (G : forall i, ic_wf i -> ic_supported i -> Forall action_wf [mkAction (Regular false false) (Forward i)]
       /\ forallb plain [mkAction (Regular false false) (Forward i)] = true
       /\ flat_map action_layout [mkAction (Regular false false) (Forward i)] = act_bits false false (Forward i)).
    { intros i W Si. repeat split; [|cbn [flat_map action_layout a_kind a_op]; apply app_nil_r].
      constructor; [|constructor]. split; [exact W | split; [reflexivity | exact Si]]. }
    destruct t; cbn [forward_conf] in *.
    + destruct conf; [destruct C; tauto|]. repeat split; constructor.
    + apply G; [exact I | exact S].
    + apply G; [|exact S]. unfold ic_wf. cbn [ic_conf]. destruct conf; [apply C | exact I].
    + apply G; [|exact S]. unfold ic_wf. cbn [ic_conf]. destruct conf; [apply C | exact I].
    + apply G; [|exact S]. unfold ic_wf. cbn [ic_conf]. destruct conf; [apply C|]. cbn. unfold conf_wf, ct_wf, addr_wf. cbn. lia.
  - intros [F O]. replace (_ && _) with true by lia. cbn [negb]. unfold indirect.
    destruct o.
    + destruct (O eq_refl) as (a & -> & Wa & Sa). repeat split.
      * constructor; [|constructor]. split; [split; [exact F | exact Wa] | cbn; auto].
      * cbn [flat_map]. rewrite app_nil_r. reflexivity.
    + repeat split.
      * constructor; [|constructor]. split; [split; [exact F | exact I] | cbn; auto].
      * cbn [flat_map]. rewrite app_nil_r. cbn [call_bits]. destruct conf; reflexivity.
Qed.
Lemma calls_ok_added l : Forall call_ok l -> Forall action_wf (flat_map added l) /\ forallb plain (flat_map added l) = true
  /\ flat_map action_layout (flat_map added l) = flat_map call_bits l.
Proof.
  induction 1 as [|k l H _ IH]; cbn [flat_map]; [repeat split; constructor|].
  destruct (call_ok_added k H) as (A1 & A2 & A3), IH as (B1 & B2 & B3). repeat split.
  - apply Forall_app. auto.
  - rewrite forallb_app, A2, B2. reflexivity.
  - rewrite flat_map_app, A3, B3. reflexivity.
Qed.
Lemma calls_wf c l : command_wf c -> Forall call_ok l -> command_wf (fst (calls c l))
  /\ command_layout (fst (calls c l)) = command_layout c ++ flat_map call_bits l.
Proof.
  intros (W1 & W2 & W3 & W4) F. destruct (calls_ok_added l F) as (A1 & A2 & A3). rewrite (proj1 (calls_effect l c)). split.
  - repeat split; cbn [with_actions c_actions c_status c_generate c_tag]; auto.
    + apply Forall_app. auto.
    + rewrite forallb_app, W2, A2. reflexivity.
  - unfold command_layout. cbn [with_actions c_actions c_generate c_tag c_respond]. rewrite flat_map_app, A3, app_assoc. reflexivity.
Qed.
Lemma calls_emit c l : command_wf c -> Forall call_ok l ->
  emits (command_ser (fst (calls c l))) (command_layout c ++ flat_map call_bits l).
Proof. intros W F. destruct (calls_wf c l W F) as [W' <-]. apply command_emits. exact W'. Qed.
Lemma calls_received c l : command_wf c -> Forall call_ok l ->
  accepts_aligned (alp_parse (zlen (command_layout c ++ flat_map call_bits l) / 8)) (command_layout c ++ flat_map call_bits l)
    (with_actions (command_received c) (map action_received (c_actions c ++ flat_map added l))).
Proof.
  intros W F. destruct (calls_wf c l W F) as [W' E]. pose proof (command_accepts _ W') as A. unfold command_bytes in A. rewrite E in A.
  rewrite (proj1 (calls_effect l c)) in A. exact A.
Qed.

(** an overload without address: the receiver takes the following bytes for it *)
Lemma overload_ser file : 0 <= file <= 255 -> emits (action_ser (indirect file true None)) ([true; false] ++ Zbits 6 51 ++ Zbits 8 file).
Proof.
  intros H. apply (act_emits true false (IndirectForward (mkIndirect file None))); [split; [exact H | exact I] | exact I].
Qed.
Lemma overload_swallows file a : 0 <= file <= 255 -> addr_wf a -> addr_stable a ->
  accepts parse_action ([true; false] ++ Zbits 6 51 ++ Zbits 8 file ++ addr_layout a) (Some (indirect file true (Some a))).
Proof.
  intros H W S. apply (action_accepts (indirect file true (Some a))). split; [split; [exact H | exact W] | cbn; auto].
Qed.

Lemma rapp_assoc a b c : (a +++ b) +++ c = a +++ (b +++ c).
Proof. destruct a as [a|], b as [b|], c as [c|]; cbn; try reflexivity. rewrite app_assoc. reflexivity. Qed.
Lemma rapp_nil_r a : a +++ Ok [] = a.
Proof. destruct a; cbn; rewrite ?app_nil_r; reflexivity. Qed.
Lemma rconcat_app a b : rconcat (a ++ b) = rconcat a +++ rconcat b.
Proof.
  induction a as [|x a IH]; cbn [app rconcat].
  - destruct (rconcat b); reflexivity.
  - rewrite IH, rapp_assoc. reflexivity.
Qed.
Lemma ser_add c a : command_ser (add_action c a) = command_ser c +++ action_ser a.
Proof.
  unfold command_ser, add_action. cbn [c_actions c_status c_generate c_tag c_respond c_completed c_error].
  rewrite map_app, rconcat_app, !rapp_assoc. cbn [map rconcat]. rewrite rapp_nil_r. reflexivity.
Qed.
(** a command that ends with such an action cannot be read back *)
Lemma actions_fail items : Forall (fun x => accepts parse_action (fst x) (snd x) /\ whole8 (fst x)) items ->
  forall tl e, (forall ps, parse_action (St ps tl) = Err e) -> tl <> [] -> (length tl mod 8 = 0)%nat ->
  forall fuel parsed ps, (length items < fuel)%nat -> (ps mod 8 = 0)%nat ->
  parse_actions fuel parsed (parsed + zlen (concat (map fst items) ++ tl) / 8) (St ps (concat (map fst items) ++ tl)) = Err e.
Proof.
  intros F tl e Ht Hn Hl. induction F as [|[l a] items [Ha [W1 W2]] Hi IH]; intros fuel parsed ps Hf Hps;
    (destruct fuel as [|fuel]; [cbn [length] in Hf; lia|]); cbn [map concat fst snd parse_actions] in *.
  - cbn [app]. unfold zlen. assert (length tl <> 0)%nat by (destruct tl; [congruence | cbn; lia]).
    replace (parsed <? parsed + Z.of_nat (length tl) / 8) with true by lia.
    unfold bindp at 1. unfold bytepos at 1. cbn [pos]. replace (Z.of_nat ps mod 8 =? 0) with true by lia.
    unfold bindp at 1. rewrite Ht. reflexivity.
  - rewrite <- app_assoc. unfold zlen. rewrite app_length.
    set (n := length (concat (map fst items) ++ tl)) in *.
    replace (parsed <? parsed + Z.of_nat (length l + n) / 8) with true by lia.
    unfold bindp at 1. unfold bytepos at 1. cbn [pos].
    replace (Z.of_nat ps mod 8 =? 0) with true by lia.
    unfold bindp at 1. rewrite Ha.
    unfold bindp at 1. unfold bytepos at 1. cbn [pos].
    replace (Z.of_nat (ps + length l) mod 8 =? 0) with true by lia.
    unfold bindp at 1.
    replace (parsed + Z.of_nat (length l + n) / 8) with
      (parsed + (Z.of_nat (ps + length l) / 8 - Z.of_nat ps / 8) + zlen (concat (map fst items) ++ tl) / 8)
      by (unfold zlen; fold n; lia).
    rewrite IH; [reflexivity | cbn [length] in Hf; lia | lia].
Qed.
Lemma bare_fails file ps : parse_action (St ps ([true; false] ++ Zbits 6 51 ++ Zbits 8 file)) = Err ReadError.
Proof.
  assert (L : length (Zbits 8 file) = 8%nat) by apply Zbits_length. revert L. generalize (Zbits 8 file). intros l L.
  do 8 (destruct l as [|? l]; [discriminate|]). destruct l; [|discriminate]. vm_compute. reflexivity.
Qed.
Lemma ends_bare c l file : command_wf c -> Forall call_ok l -> 0 <= file <= 255 ->
  let wire := command_layout c ++ flat_map call_bits (l ++ [AddIndirect file true None]) in
  emits (command_ser (fst (calls c (l ++ [AddIndirect file true None])))) wire
  /\ forall ps, (ps mod 8 = 0)%nat -> alp_parse (zlen wire / 8) (St ps wire) = Err ReadError.
Proof.
  intros W F H wire. subst wire. rewrite flat_map_app. cbn [flat_map call_bits]. rewrite !app_nil_r, app_assoc.
  destruct (calls_wf c l W F) as [W' E]. rewrite <- E.
  assert (X : fst (calls c (l ++ [AddIndirect file true None])) = add_action (fst (calls c l)) (indirect file true None)).
  { rewrite (proj1 (calls_effect _ _)), (proj1 (calls_effect _ _)), flat_map_app. cbn [flat_map]. rewrite app_nil_r.
    unfold added at 2. cbn [refused]. replace (_ && _) with true by lia. cbn [negb].
    unfold add_action, with_actions. cbn [c_actions c_status c_generate c_tag c_respond c_completed c_error]. rewrite app_assoc. reflexivity. }
  rewrite X. set (d := fst (calls c l)) in *. clearbody d. split.
  - rewrite ser_add. apply emits_app; [apply command_emits; exact W' | apply overload_ser; exact H].
  - intros ps Hp. destruct (command_items d W') as (Fi & Ci & _). rewrite <- Ci.
    set (tl := [true; false] ++ Zbits 6 51 ++ Zbits 8 file).
    assert (Lt : length tl = 16%nat) by (unfold tl; rewrite !app_length, !Zbits_length; reflexivity).
    assert (N : tl <> []) by (intros N; rewrite N in Lt; discriminate).
    assert (Lz : 1 <= zlen (concat (map fst (command_item_list d)) ++ tl) / 8) by (unfold zlen; rewrite app_length; lia).
    assert (Li : (length (command_item_list d) <= length (concat (map fst (command_item_list d))))%nat).
    { pose proof (items_len (command_item_list d)) as Q. enough (Forall (fun x : list bool * option Action => whole8 (fst x)) (command_item_list d)) by (specialize (Q H0); lia).
      eapply Forall_impl; [|exact Fi]. cbn. tauto. }
    unfold alp_parse. replace (_ =? 0) with false by lia. unfold bindp. cbn [bits].
    pose proof (actions_fail _ Fi tl ReadError (bare_fails file) N) as K. rewrite Lt in K. specialize (K eq_refl).
    rewrite (K _ 0); [reflexivity | rewrite app_length; lia | exact Hp].
Qed.

(** a second tag *)
Lemma second_tag c a : command_wf c -> c_generate c = true -> action_wf a -> is_tag a = true ->
  emits (command_ser (fst (call c (AddAction a)))) (command_layout c ++ action_layout a)
  /\ forall ps rest, (ps mod 8 = 0)%nat ->
     alp_parse (zlen (command_layout c ++ action_layout a) / 8) (St ps ((command_layout c ++ action_layout a) ++ rest)) = Err ParseError.
Proof.
  intros W G Wa Ta. split.
  - cbn [call fst].
    rewrite ser_add. apply emits_app; [apply command_emits; exact W | apply action_emits; exact Wa].
  - intros ps rest Hp. destruct W as (W1 & W2 & W3 & W4). destruct (W4 G) as (t & Et & Ht).
    set (ta := mkAction (TagReqAct (c_respond c)) (TagRequest (mkTag t))).
    set (acts := ta :: c_actions c ++ [a]).
    assert (FA : Forall action_wf acts).
    { constructor; [apply tag_action_wf; exact Ht|]. apply Forall_app. split; [exact W1 | constructor; [exact Wa | constructor]]. }
    assert (EL : command_layout c ++ action_layout a = flat_map action_layout acts).
    { unfold command_layout. rewrite G, Et. unfold acts. cbn [flat_map]. rewrite flat_map_app. cbn [flat_map]. rewrite app_nil_r, app_assoc. reflexivity. }
    rewrite EL.
    assert (R : forall ps, reads (St ps (flat_map action_layout acts ++ rest)) (map Some (map action_received acts))
                  (St (ps + length (flat_map action_layout acts)) rest)).
    { clear -FA. induction FA as [|x l Hx _ IH]; intros ps; cbn [flat_map map].
      - cbn [app length]. rewrite Nat.add_0_r. constructor.
      - rewrite app_length, Nat.add_assoc, <- app_assoc. econstructor; [|apply IH]. apply action_accepts. exact Hx. }
    pose proof (alp_two _ _ _ (R ps) Hp) as K. cbn [pos] in K.
    replace (Z.of_nat (ps + length (flat_map action_layout acts) - ps)) with (zlen (flat_map action_layout acts)) in K by (unfold zlen; lia).
    rewrite K. replace (_ && _) with false; [reflexivity|]. symmetry. apply andb_false_iff. left. apply Nat.leb_gt.
    assert (Ta' : is_tag (action_received a) = true).
    { clear -Ta. destruct a as [k o]. unfold action_received, is_tag in *. cbn [a_kind a_op] in *. destruct k; try discriminate; destruct o; reflexivity. }
    unfold acts. cbn [map]. rewrite map_app. cbn [map]. change (is_tag (action_received ta)) with true.
    cbn [filter]. change (is_tag (action_received ta)) with true. cbv iota. cbn [length]. rewrite filter_app. cbn [filter]. rewrite Ta'. rewrite app_length. cbn [length]. lia.
Qed.

(** two programs, one message *)
Lemma calls_ser c l : command_ser (fst (calls c l)) = command_ser c +++ rconcat (map action_ser (flat_map added l)).
Proof.
  rewrite (proj1 (calls_effect l c)). unfold command_ser, with_actions. cbn [c_actions c_status c_generate c_tag c_respond c_completed c_error].
  rewrite map_app, rconcat_app, !rapp_assoc. reflexivity.
Qed.
Lemma two_messages : exists conf a b, let l1 := [AddIndirect 64 true None; AddAction a] in let l2 := [AddIndirect 64 true (Some conf); AddAction b] in
  action_wf a /\ plain a = true /\ Forall call_ok l2 /\ a <> b
  /\ forall c, command_ser (fst (calls c l1)) = command_ser (fst (calls c l2)).
Proof.
  pose (read f o n := ReadFileData (mkDataRequest (mkOffset f (mkLength o)) (mkLength n))).
  exists (mkAddr 7 NBID (IdCT (mkCT 0 5)) AES_CTR), (mkAction (Regular false false) (read 7 5 16842757)), (mkAction (Regular true true) (read 1 0 5)).
  cbv zeta. subst read. cbv beta.
  refine (conj _ (conj eq_refl (conj _ (conj _ _)))).
  - split; [|cbn; auto]. cbn. unfold dr_wf, off_wf, len_wf, len_max; cbn. lia.
  - constructor; [|constructor; [|constructor]].
    + split; [lia|]. intros _. eexists. split; [reflexivity|]. split; [split; [cbn; lia | unfold ct_wf; cbn; lia] | cbn; left; lia].
    + split; [|reflexivity]. split; [|cbn; auto]. cbn. unfold dr_wf, off_wf, len_wf, len_max; cbn. lia.
  - discriminate.
  - intros c. rewrite !calls_ser. f_equal.
Qed.

(** the interface status *)
Lemma status_total n s c s' : (pos s mod 8 = 0)%nat -> alp_parse n s = Ok (c, s') ->
  get_d7asp_interface_status c = Ok (match c_status c with Some a => d7_status a | None => None end).
Proof.
  intros Hs E. destruct (alp_parsed n s c s' Hs E) as (l & _ & F & T & S & ->).
  unfold get_d7asp_interface_status.
  assert (Q : c_status (command_of false None true l) = hd_error (filter is_status l)).
  { unfold command_of. destruct (filter is_tag l) as [|a r]; [reflexivity|]. destruct (a_kind a); reflexivity. }
  rewrite Q. destruct (filter is_status l) as [|a r] eqn:Fl; [reflexivity|]. cbn [hd_error].
  assert (I : In a (filter is_status l)) by (rewrite Fl; left; reflexivity). apply filter_In in I as [I B].
  rewrite Forall_forall in F. specialize (F a I). destruct F as [_ F]. destruct a as [k o]. cbn [a_kind a_op is_status d7_status] in *.
  unfold is_status in B. cbn [a_kind] in B.
  destruct k; try discriminate. destruct o; try contradiction. destruct F as [-> F]. destruct o as [i b]. cbn [iso_id iso_status] in *.
  destruct b as [b|].
  - destruct F as [-> _]. reflexivity.
  - destruct F as [-> | ->]; reflexivity.
Qed.
Lemma status_of_message ls acts : Forall2 incoming ls acts -> one_tag acts -> one_status acts ->
  forall ps rest, (ps mod 8 = 0)%nat ->
  exists c, alp_parse (zlen (concat ls) / 8) (St ps (concat ls ++ rest)) = Ok (c, St (ps + length (concat ls)) rest)
    /\ get_d7asp_interface_status c = Ok (hd_error (flat_map (fun a => match d7_status a with Some s => [s] | None => [] end) acts)).
Proof.
  intros F T S ps rest Hp. eexists. split; [apply (incoming_command ls acts F T S); exact Hp|].
  rewrite (status_total _ (St ps (concat ls ++ rest)) _ _ Hp (incoming_command ls acts F T S ps rest Hp)). f_equal.
  assert (Q : c_status (command_of false None true acts) = hd_error (filter is_status acts)).
  { unfold command_of. destruct (filter is_tag acts) as [|a r]; [reflexivity|]. destruct (a_kind a); reflexivity. }
  rewrite Q. clear Q T S. induction F as [|l a ls acts H _ IH]; [reflexivity|]. cbn [filter flat_map].
  inversion H; subst; unfold is_status at 1; cbn [a_kind d7_status]; try exact IH. reflexivity.
Qed.
(** the same for commands an application builds *)
Lemma loop_status l : forall c bad c' bad', command_loop (map Some l) c bad = Ok (c', bad') ->
  match c_status c with
  | Some a => filter is_status l = [] /\ c_status c' = Some a
  | None => (filter is_status l = [] /\ c_status c' = None) \/ exists a, filter is_status l = [a] /\ c_status c' = Some a
  end.
Proof.
  induction l as [|a r IH]; intros c bad c' bad' E; cbn [map command_loop] in E.
  - inversion E; subst. destruct (c_status c'); auto.
  - destruct (add_init c a) as [c1|] eqn:A; [|discriminate]. cbn [rbind] in E. specialize (IH _ _ _ _ E).
    cbn [filter]. unfold is_status at 1 2.
    assert (K : (is_status a = false /\ c_status c1 = c_status c)
                \/ (is_status a = true /\ c_status c = None /\ c_status c1 = Some a)).
    { unfold add_init, is_status in *. destruct (a_kind a) as [| | |e| |]; cbn in A;
        try (inversion A; subst; left; split; reflexivity);
        try (destruct (c_tag c); [discriminate|]; destruct (operand_tag (a_op a)); [|discriminate]; inversion A; subst; left; split; reflexivity).
      destruct e as [|p|p]; try (inversion A; subst; left; split; reflexivity).
      destruct p; try (inversion A; subst; left; split; reflexivity).
      destruct (c_status c); [discriminate|]. inversion A; subst. right. repeat split. }
    fold (is_status a). destruct K as [[K1 K2] | (K1 & K2 & K3)].
    + rewrite K1, <- K2. exact IH.
    + rewrite K1, K2. rewrite K3 in IH. destruct IH as [F S]. right. exists a. rewrite F. split; [reflexivity | exact S].
Qed.
Lemma status_of_built rnd l g t r c :
  Forall (fun a => is_status a = true -> exists o, a_op a = InterfaceStatus o) l ->
  mk_command rnd (map Some l) g t r = Ok c ->
  get_d7asp_interface_status c = Ok (hd_error (flat_map (fun a => match d7_status a with Some s => [s] | None => [] end) l)).
Proof.
  intros F E. unfold mk_command in E.
  destruct (command_loop _ _ _) as [[c1 bad]|] eqn:L; [|discriminate]. cbn [rbind] in E.
  assert (Q : c_status c = c_status c1).
  { unfold validated in E. destruct (negb bad); [|discriminate]. inversion E. destruct g, (c_tag c1); reflexivity. }
  apply loop_status in L. cbn [c_status] in L. rewrite <- Q in L. clear Q E.
  assert (G : flat_map (fun a => match d7_status a with Some s => [s] | None => [] end) l
     = flat_map (fun a => match d7_status a with Some s => [s] | None => [] end) (filter is_status l)).
  { clear. induction l as [|a l IH]; [reflexivity|]. cbn [filter flat_map]. rewrite IH. destruct (is_status a) eqn:B; [reflexivity|].
    replace (d7_status a) with (@None Status); [reflexivity|]. destruct a as [k o]. unfold is_status in B. cbn [a_kind] in B.
    destruct k; try reflexivity. destruct ext as [|p|p]; try reflexivity. destruct p; try reflexivity. discriminate. }
  rewrite G. unfold get_d7asp_interface_status. destruct L as [[K S] | (a & K & S)]; rewrite K, S; [reflexivity|].
  assert (I : In a (filter is_status l)) by (rewrite K; left; reflexivity). apply filter_In in I as [I B].
  rewrite Forall_forall in F. destruct (F a I B) as [[i b] O]. destruct a as [k op]. cbn [a_op] in O. subst op.
  unfold is_status in B. cbn [a_kind] in B. destruct k; try discriminate. apply Z.eqb_eq in B. subst.
  cbn [a_op iso_id iso_status]. destruct (i =? 215) eqn:D.
  - apply Z.eqb_eq in D. subst. destruct b; reflexivity.
  - apply Z.eqb_neq in D. cbn [flat_map]. replace (d7_status (mkAction (StatusAct 1) (InterfaceStatus (mkISO i b)))) with (@None Status); [reflexivity|].
    unfold d7_status. repeat (match goal with |- context [match ?x with _ => _ end] => is_var x; destruct x end; try reflexivity); try congruence; destruct b; congruence.
Qed.
