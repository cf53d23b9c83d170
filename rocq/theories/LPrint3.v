From Coq Require Import String ZifyBool ZifyNat.
From Verif Require Import MBase MCt MPhy MProfile MOperands MSysFiles MAlp MDll MAsDict MPrint SAsDict SPrint LPrint LPrint2.
Open Scope string_scope.
Open Scope Z_scope.

Lemma joined_texts l ts : Forall2 (fun v t => str v = Ok t) l ts -> joined (map tree l) = Ok (map Sub ts).
Proof.
  induction 1 as [|v t l ts E _ IH]; [reflexivity|]. cbn [map joined]. unfold str in E. rewrite E. cbn [rbind].
  rewrite IH. reflexivity.
Qed.
Lemma profile_str p : exists h bs, str (o_ch (ap_header p)) = Ok h
  /\ Forall2 (fun b t => str (o_subband b) = Ok t) (ap_bands p) bs
  /\ str (o_ap p) = Ok [Lit "channel_header="; Sub h;
                        Lit ", sub_profiles="; Sub (map (fun s => Sub [Dict (as_dict (o_subprofile s))]) (ap_profiles p));
                        Lit ", sub_bands="; Sub (map Sub bs)].
Proof.
  assert (H : exists h, str (o_ch (ap_header p)) = Ok h) by (eexists; reflexivity). destruct H as [h H].
  assert (B : exists bs, Forall2 (fun b t => str (o_subband b) = Ok t) (ap_bands p) bs).
  { induction (ap_bands p) as [|b r [bs IH]]; [exists []; constructor|].
    assert (X : exists t, str (o_subband b) = Ok t) by (eexists; reflexivity). destruct X as [t X].
    exists (t :: bs). constructor; assumption. }
  destruct B as [bs B]. exists h, bs. split; [exact H|]. split; [exact B|].
  assert (J1 : joined (map tree (map o_subprofile (ap_profiles p)))
               = Ok (map Sub (map (fun s => [Dict (as_dict (o_subprofile s))]) (ap_profiles p)))).
  { apply joined_texts. induction (ap_profiles p); constructor; [reflexivity | assumption]. }
  assert (J2 : joined (map tree (map o_subband (ap_bands p))) = Ok (map Sub bs)).
  { apply joined_texts. induction B; constructor; assumption. }
  rewrite (map_map _ Sub) in J1.
  unfold o_ap. change (str (PObj "AccessProfile" ?a)) with (profile_text (map (fun e => (fst e, tree (snd e))) a)).
  unfold profile_text. cbn [map fst snd attr String.eqb Ascii.eqb Bool.eqb rbind tree elems_of].
  rewrite J1. cbn [rbind]. rewrite J2. cbn [rbind].
  change (str (o_ch (ap_header p))) with (text_of (tree (o_ch (ap_header p)))) in H.
  injection H as <-. reflexivity.
Qed.
