(* Annotating leaves the text: C71.
   [unread], [shielded] and [nothing_awaits] (QuietSpec.v) say when an addition is not read for the text;
   [text_is], [text_fails] and [good_request] (PropsText.v) say what text() returns. *)
From Coq Require Import String List Bool Arith NArith Lia.
From Verif Require Import Base BaseFacts Types TypesFacts SpecTable Attrib AttribFacts Element Store StoreFacts Metadata Document Select DocOps Text Xml Parser Serialiser History Spec
  FrameFacts InvFacts DocFacts StoreThms InternFacts EncodeFacts LinkFacts TreeFacts ForestFacts SelSpec SelectFacts Examples PropsEncode PropsLinks PropsSelect PropsQuery NoPanic ValidFacts PropsValid
  TextSpec TextFacts PropsText TextRound SpanSpec SpanLinks PropsSave PropsSpans QueryRound QuietSpec QuietFacts.
Import ListNotations.
Open Scope string_scope.
Open Scope list_scope.

(* ---------------------------------------------------------------- requests stay good *)
Lemma request_stays a b tp : doc_le a b -> good_request a tp -> good_request b tp.
Proof.
  intros [_ (D & X & _) _] (dk & c & ck & A & B & C). exists dk, c. assert (A' : get_declaration_key_by_id b (index_id AT_TEXT (tp_set tp)) = Some dk) by (apply X, A).
  unfold doc_class_key in *. destruct (get_declaration a dk) as [x|] eqn:G; [|discriminate]. destruct (D dk x G) as (y & G' & K). fold (get_declaration b dk) in G'. exists ck. split; [exact A'|]. split; [exact B|].
  rewrite G'. destruct (d_class_key x c) as [z|] eqn:Z; [|discriminate]. rewrite (dk_class_key _ _ K c z Z). exact C.
Qed.
Lemma add_to_le fuel d p e d1 k : reachable anything d -> add_element_to fuel d p e = (d1, Ok k) -> doc_le d d1 /\ reachable anything d1.
Proof.
  intros R A. assert (O' : op_ok anything d (OAddElementTo p e)) by apply op_ok_anything.
  assert (RO : run_op fuel d (OAddElementTo p e) = (d1, Ok tt)) by (cbn [run_op]; unfold forget; rewrite A; reflexivity). split.
  - eapply (history_le anything d [OAddElementTo p e]); [apply anything_ok|exact R|]. eapply hist_cons; [exact O'|exact RO|exact I|apply hist_nil].
  - eapply reach_op; [exact R|exact O'|exact RO|exact I].
Qed.

(* ---------------------------------------------------------------- adding *)
(* the text of every element of d is the same in d1 *)
Definition same_text (d d1 : document) : Prop := forall j tp, get_elementdata d j <> None -> good_request d tp ->
  good_request d1 tp /\ (forall t, text_is d1 j tp t <-> text_is d j tp t) /\ (text_fails d1 j tp <-> text_fails d j tp).
Lemma added_quiet fuel d p pe e d1 k : reachable anything d -> consistent d -> get_elementdata d p = Some pe -> fresh_for d e -> nothing_awaits d e ->
  unread (e_type pe) (e_type e) -> shielded d p -> add_element_to fuel d p e = (d1, Ok k) -> same_text d d1.
Proof.
  intros R C GP F NA UR SH A. destruct (add_to_le _ _ _ _ _ _ R A) as (LE & R1). assert (P : get_elementdata d p <> None) by congruence.
  destruct (added_to _ _ _ _ _ _ F P A) as (_ & (ke & GK & TK) & _ & _ & IG). destruct (C23_add_element_to_appends_tree _ _ _ _ _ _ P F A) as (_ & _ & _ & K & _).
  assert (ATT : forall j x y, get_elementdata d j = Some x -> get_elementdata d1 j = Some y -> group_contains EG_Layer (e_type x) = false -> e_attribs y = e_attribs x).
  { intros j x y G G1 NL. destruct (doc_le_elem _ _ _ _ LE G) as (y' & G' & [T _ [Q|((L & _) & _)]]); replace y' with y in * by congruence; [exact Q|congruence]. }
  intros j tp NJ GR. pose proof (request_stays _ _ _ LE GR) as GR1. split; [exact GR1|].
  destruct (get_elementdata d j) as [x|] eqn:G; [clear NJ|congruence]. destruct (K j x G) as (y & G1 & _).
  assert (S : forall t, (TextSpec.has_text d (tp_retain tp) x t <-> TextSpec.has_text d1 (tp_retain tp) y t) /\ (TextSpec.no_text d (tp_retain tp) x <-> TextSpec.no_text d1 (tp_retain tp) y)).
  { intros t. apply (has_text_stays d d1 p k ke (reachable_resolves d R) (reachable_resolves d1 R1)) with (j := j); [|exact SH|exact GK|intros pe' E; replace pe' with pe by congruence; rewrite TK; exact UR| | |exact G|exact G1].
    - intros a ae c Ga I'. destruct (C a) as (_ & Q). destruct (Q c) as (Q1 & Q2). assert (IC : In c (children_of d a)) by (unfold children_of; rewrite Ga; apply in_child_keys, I').
      specialize (Q2 IC). apply Q1 in IC. unfold parent_of in IC. destruct (get_elementdata d c) as [ce|]; [|congruence]. exists ce. auto.
    - intros a ae Ga. destruct (K a ae Ga) as (ye & Gy & T & _ & CO). exists ye. split; [exact Gy|]. split; [exact T|]. split; [|exact CO]. intros SP.
      assert (NL : group_contains EG_Layer (e_type ae) = false) by (destruct (group_contains EG_Layer (e_type ae)) eqn:L; [rewrite (layer_no_space _ L) in SP; discriminate|reflexivity]).
      unfold space_of, e_attrib. rewrite (ATT a ae ye Ga Gy NL). reflexivity.
    - intros w we we' Gw Gw' W. assert (EA : e_attribs we' = e_attribs we) by (apply (ATT w we we' Gw Gw'); rewrite W; reflexivity).
      unfold target. assert (EI : e_idref we' = e_idref we) by (unfold e_idref; rewrite EA; reflexivity). rewrite EI. destruct (e_idref we) as [id|] eqn:ID; [|left; auto].
      destruct (get_element_key_by_id d id) as [t0|] eqn:KT.
      + destruct LE as [(_ & X & _) _ _]. assert (KT1 : get_element_key_by_id d1 id = Some t0) by (apply X, KT). rewrite KT1. destruct (get_by_id_element d id R) as (_ & N & _). destruct (N t0 KT) as (te & GT & _). rewrite GT.
        destruct (K t0 te GT) as (te' & GT' & _). right. exists t0, te, te'. auto.
      + left. split; [reflexivity|]. destruct (get_element_key_by_id d1 id) as [t1|] eqn:KT1; [|reflexivity]. exfalso. assert (HI : has_id d1 id) by (unfold has_id; congruence).
        destruct (IG id HI) as [Q|Q]; [apply Q, KT|]. eapply NA; eassumption. }
  split.
  - intros t. rewrite !text_is_iff by assumption. destruct (S t) as (Q & _). split; intros (z & Gz & T); [exists x|exists y]; (split; [assumption|]); apply Q; congruence.
  - rewrite (text_fails_iff d1 j tp y GR1 G1), (text_fails_iff d j tp x GR G). destruct (S "") as (_ & Q). symmetry. exact Q.
Qed.
Lemma same_text_trans a b c : (forall j, get_elementdata a j <> None -> get_elementdata b j <> None) -> same_text a b -> same_text b c -> same_text a c.
Proof.
  intros K A B j tp NJ GR. destruct (A j tp NJ GR) as (GB & TB & FB). destruct (B j tp (K j NJ) GB) as (GC & TC & FC). split; [exact GC|]. split; [intros t; rewrite TC; apply TB|]. rewrite FC. exact FB.
Qed.

(* ---------------------------------------------------------------- where annotate puts a span *)
Lemma own_delimiter t : p_wrefable (props t) = true \/ In t (group_elementtypes EG_Structure) -> p_textdelimiter (props t) <> None.
Proof. intros H. assert (X : p_wrefable (props t) || group_contains EG_Structure t = true) by (apply orb_true_iff; destruct H as [H|H]; [left; exact H|right; apply group_in, H]). clear H. destruct t; vm_compute in X; try discriminate X; vm_compute; discriminate. Qed.
Lemma layer_silent t : group_contains EG_Layer t = true -> silent t = true.
Proof. destruct t; vm_compute; auto. Qed.
Lemma structure_matched d s k : from_query d structure_query = Ok s -> matches s d (DElement k) = Ok true -> exists e, get_elementdata d k = Some e /\ In (e_type e) (group_elementtypes EG_Structure).
Proof.
  intros Q M. injection Q as <-. cbn -[group_contains] in M. destruct (get_elementdata d k) as [e|]; [|discriminate]. exists e. split; [reflexivity|]. apply group_in. cbn -[group_contains] in M.
  destruct (group_contains EG_Structure (e_type e)); [reflexivity|discriminate].
Qed.
Lemma ancestors_matched d s : forall fuel k l, ancestors fuel d s k = Ok l -> forall a, In a l -> matches s d (DElement a) = Ok true.
Proof.
  induction fuel as [|f IH]; intros k l; cbn [ancestors]; [discriminate|]. destruct (get_elementdata d k) as [e|]; [|intros H; injection H as <-; intros a []].
  destruct (e_parent e) as [q|]; [|intros H; injection H as <-; intros a []]. destruct (matches s d (DElement q)) as [[|]| | |] eqn:M; try discriminate; (destruct (get_elementdata d q); [|discriminate]); intros H.
  - apply rbind_ok in H. destruct H as (l' & A & H). injection H as <-. intros a [<-|I']; [exact M|eapply IH; eassumption].
  - eapply IH, H.
Qed.
Lemma common_matched fuel d s : reachable anything d -> forall keys l0 l, common_loop fuel d s l0 keys = Ok l -> (forall a, In a l0 -> matches s d (DElement a) = Ok true) -> forall a, In a l -> matches s d (DElement a) = Ok true.
Proof.
  intros R. induction keys as [|k keys IH]; intros l0 l; cbn [common_loop]; [intros H; injection H as <-; auto|]. destruct (get_elementdata d k) as [e|]; [|apply IH].
  intros H M. apply rbind_ok in H. destruct H as (own & _ & H). apply rbind_ok in H. destruct H as (an0 & A & H). apply rbind_ok in H. destruct H as (an & AK & H). apply (keys_of_ok d _ _ R) in AK. subst an0.
  eapply IH; [exact H|]. intros a I'. destruct l0 as [|b l0]; [eapply ancestors_matched; eassumption|]. apply filter_In in I'. apply M, I'.
Qed.
(* the element that holds the layer *)
Lemma annotate_holder fuel d p e d1 r : reachable anything d -> in_layer d p e -> annotate fuel d p e = (d1, r) ->
  (d1 = d /\ forall k, r <> Ok k) \/
  exists h he t lt set, get_elementdata d h = Some he /\ In (e_type he) (group_elementtypes EG_Structure) /\ et_annotationtype (e_type e) = Some t /\ at_layertype t = Some lt /\ add_in_layer fuel d p h t lt (Some set) e = (d1, r).
Proof.
  intros R (SP & pe & GP & PS). unfold annotate. rewrite GP. apply group_in in SP. rewrite SP.
  destruct (et_annotationtype (e_type e)) as [t|] eqn:AT; [|intros H; injection H as <- <-; left; split; [reflexivity|discriminate]]. cbn [expect sbind].
  destruct (at_layertype t) as [lt|] eqn:LT; [|intros H; injection H as <- <-; left; split; [reflexivity|discriminate]]. cbn [ok_or sbind]. cbv zeta.
  destruct (p_wrefable (props (e_type pe))) eqn:WR; cbn [negb andb orb].
  - intros H. match type of H with match ?x with _ => _ end = _ => destruct x as [set| | |] eqn:SE end; cbn [sbind] in H; try (injection H as <- <-; left; split; [reflexivity|discriminate]).
    destruct (get_span_keys d e) as [|x l]; [injection H as <- <-; left; split; [reflexivity|discriminate]|].
    destruct (from_query d structure_query) as [s| | |] eqn:FQ; cbn [unwrap sbind] in H; try (injection H as <- <-; left; split; [reflexivity|discriminate]).
    destruct (common_ancestors fuel d s (x :: l)) as [anc| | |] eqn:CA; cbn [sbind] in H; try (injection H as <- <-; left; split; [reflexivity|discriminate]).
    destruct (find (suitable d lt) anc) as [a|] eqn:FA; [|injection H as <- <-; left; split; [reflexivity|discriminate]]. apply find_some in FA. destruct FA as (IA & _).
    assert (MA : matches s d (DElement a) = Ok true) by (eapply (common_matched fuel d s R); [exact CA|intros ? []|exact IA]). destruct (structure_matched _ _ _ FQ MA) as (he & GH & ST).
    right. assert (X : exists s0, set = Some s0).
    { destruct (e_set e) as [[u|]| | |]; cbn [rbind] in SE; try discriminate; [injection SE as <-; eauto|]. destruct (get_default_set d t) as [u|]; [|discriminate]. injection SE as <-. eauto. }
    destruct X as (s0 & ->). exists a, he, t, lt, s0. auto.
  - destruct PS as [PS|PS]; [congruence|]. assert (ST : group_contains EG_Structure (e_type pe) = true) by (apply group_in, PS). rewrite ST. intros H.
    match type of H with match ?x with _ => _ end = _ => destruct x as [set| | |] eqn:SE end; cbn [sbind] in H; try (injection H as <- <-; left; split; [reflexivity|discriminate]).
    right. assert (X : exists s0, set = Some s0).
    { destruct (e_set e) as [[u|]| | |]; cbn [rbind] in SE; try discriminate; [injection SE as <-; eauto|]. destruct (get_default_set d t) as [u|]; [|discriminate]. injection SE as <-. eauto. }
    destruct X as (s0 & ->). exists p, pe, t, lt, s0. auto.
Qed.

Lemma new_layer_awaits d lt s : nothing_awaits d (new_layer lt (Some s)).
Proof. intros w we id _ _ _ _ I'. destruct (fresh_for_layer lt (Some s) d) as (_ & Q). fold (new_layer lt (Some s)) in Q. rewrite Q in I'. destruct I'. Qed.
Lemma first_such_in P l k : first_such P l (Some k) -> P k /\ (In (DElement k) l \/ In (DSpanReference k) l).
Proof.
  remember (Some k) as o eqn:E. intros H. induction H as [|x j l IK PJ|x l r N H IH]; [discriminate| |].
  - injection E as ->. split; [exact PJ|]. destruct x; cbn [item_key] in IK; try discriminate; injection IK as ->; [left|right]; left; reflexivity.
  - destruct (IH E) as (A & [B|B]); split; auto; [left|right]; right; exact B.
Qed.
Lemma spanned_quiet fuel d p e d1 k : settled d -> fresh_for d e -> nothing_awaits d e -> in_layer d p e -> annotate fuel d p e = (d1, Ok k) -> same_text d d1.
Proof.
  intros ST F NA IL H. pose proof (settled_tidy _ ST) as T. pose proof (tidy_reachable _ T) as RN. pose proof (normal_any _ RN) as R. pose proof (C18_links_agree_partial _ T) as CO.
  destruct (annotate_holder _ _ _ _ _ _ R IL H) as [(_ & X)|(h & he & t & lt & s & GH & SH & AT & LT & X)]; [destruct (X k eq_refl)|]. clear H.
  destruct IL as (SP & pe & GP & PS). assert (SPG : group_contains EG_Span (e_type e) = true) by (apply group_in, SP).
  assert (LG : group_contains EG_Layer lt = true) by (eapply layer_group; eassumption). pose proof (layer_silent lt LG) as LS.
  destruct (add_in_layer_inv _ _ _ _ _ _ _ _ _ _ SPG AT LT X) as [(_ & Y)|[(lk & GL & C & A)|(_ & C & d2 & r2 & A & [(_ & _ & Y)|(lk & -> & C2 & A2)])]]; [destruct (Y k eq_refl)| |destruct r2; discriminate|].
  - (* a layer under p *)
    destruct (layer_key_type _ _ _ _ _ _ _ R LT GL) as (qe & GQ & TQ). destruct (layer_annotation _ _ _ SPG AT LT) as (b & AB).
    apply (layer_key_first fuel d p pe t lt b s _ RN GP LT AB) in GL. apply first_such_in in GL. destruct GL as (_ & IN).
    assert (IC : In (DElement lk) (e_data pe)).
    { destruct IN as [I'|I']; [exact I'|]. destruct (linked_refs d (C67_spans_linked_partial d ST) p pe lk GP I') as (qe' & GQ' & GS). replace qe' with qe in GS by congruence. rewrite TQ in GS. clear - LG GS. exfalso. destruct lt; vm_compute in LG; try discriminate LG; vm_compute in GS; discriminate GS. }
    assert (PL : e_parent qe = Some p). { destruct (CO p) as (_ & Q). destruct (Q lk) as (Q1 & _). assert (J : In lk (children_of d p)) by (unfold children_of; rewrite GP; apply in_child_keys, IC). apply Q1 in J. unfold parent_of in J. rewrite GQ in J. exact J. }
    eapply (added_quiet fuel d lk qe e d1 k R CO GQ F NA); [left; rewrite TQ; exact LS| |exact A].
    eapply shielded_silent; [exact GQ|rewrite TQ; exact LS|]. intros q Q. replace q with p by congruence. eapply shielded_own; [exact GP|apply own_delimiter, PS].
  - (* a new layer *)
    destruct (fresh_for_layer lt (Some s) d) as (FL & IDL). fold (new_layer lt (Some s)) in FL, IDL. assert (HN : get_elementdata d h <> None) by congruence.
    assert (SHH : shielded d h) by (eapply shielded_own; [exact GH|apply own_delimiter; right; exact SH]).
    assert (S1 : same_text d d2).
    { eapply (added_quiet fuel d h he _ d2 lk R CO GH FL (new_layer_awaits d lt s)); [|exact SHH|exact A]. rewrite new_layer_type. right. split; [exact LS|]. intros TC. exfalso. clear - SH TC. apply group_in in SH. destruct (e_type he); vm_compute in SH; try discriminate SH; vm_compute in TC; discriminate TC. }
    destruct (added_to _ _ _ _ _ _ FL HN A) as (NK & (le & GLE & TLE) & PLE & KE & IG). rewrite IDL in IG. rewrite new_layer_type in TLE.
    destruct (add_to_le _ _ _ _ _ _ R A) as (LE & R2). pose proof (fresh_after _ _ _ F IG) as F2.
    assert (LT2 : h < sh_len d) by (apply sh_exists, HN). destruct (add_element_to_tree _ _ _ _ _ _ LT2 FL A) as (EK & LEN & _ & _ & _ & _ & FO).
    assert (CO2 : consistent d2) by (apply consistent_linked, f_linked, FO, tidy_forest, T).
    assert (NA2 : nothing_awaits d2 e).
    { intros w we id GW W EI KN I'. assert (WL : w < sh_len d2) by (unfold sh_len; apply nth_error_Some; unfold get_elementdata, st_get in GW; destruct (nth_error _ w); congruence).
      destruct (get_elementdata d w) as [we0|] eqn:GW0.
      - destruct (doc_le_elem _ _ _ _ LE GW0) as (we' & GW' & [TT _ [Q|((L & _) & _)]]); replace we' with we in * by congruence; [|rewrite W in L; discriminate].
        assert (EI0 : e_idref we0 = Some id) by (unfold e_idref in *; rewrite <- Q; exact EI). assert (KN0 : get_element_key_by_id d id = None).
        { destruct (get_element_key_by_id d id) as [z|] eqn:KZ; [|reflexivity]. apply (found_le _ _ _ _ LE) in KZ. congruence. }
        exact (NA w we0 id GW0 (eq_trans (eq_sym TT) W) EI0 KN0 I').
      - assert (size (new_layer lt (Some s)) = 1) as SZ by reflexivity. rewrite SZ in LEN. assert (WK : w = lk).
        { assert (w >= sh_len d). { destruct (Nat.lt_ge_cases w (sh_len d)) as [Q|Q]; [|exact Q]. exfalso. destruct (reachable_ok _ _ anything_ok R) as (((DE & _) & _) & _). specialize (DE w). unfold sh_len, st_len in *. unfold get_elementdata in GW0. destruct (DE Q) as (z & Z). congruence. }
          cbn in EK. lia. }
        subst w. replace we with le in W by congruence. rewrite TLE in W. rewrite W in LG. discriminate LG. }
    eapply same_text_trans; [|exact S1|].
    + intros j NJ. destruct (get_elementdata d j) as [x|] eqn:G; [|destruct (NJ eq_refl)]. destruct (KE j x G) as (y & Y & _). rewrite Y. discriminate.
    + eapply (added_quiet fuel d2 lk le e d1 k R2 CO2 GLE F2 NA2); [left; rewrite TLE; exact LS| |exact A2].
      eapply shielded_silent; [exact GLE|rewrite TLE; exact LS|]. intros q Q. unfold parent_of in PLE. rewrite GLE in PLE. cbn in PLE. replace q with h by congruence.
      destruct (KE h he GH) as (he' & GH' & TH & _). eapply shielded_own; [exact GH'|rewrite TH; apply own_delimiter; right; exact SH].
Qed.

(* ================================================================ C71 *)
(* Partial: the addition is not read for the text, no delimiter depends on it, and no word reference waits for it; for the
   rest the claim fails, see below. *)
Theorem C71_adding_keeps_text_partial : forall fuel d p pe e d1 k, tidy d -> get_elementdata d p = Some pe -> fresh_for d e -> nothing_awaits d e ->
  unread (e_type pe) (e_type e) -> shielded d p -> add_element_to fuel d p e = (d1, Ok k) ->
  forall j tp, get_elementdata d j <> None -> good_request d tp ->
  good_request d1 tp /\ (forall t, text_is d1 j tp t <-> text_is d j tp t) /\ (text_fails d1 j tp <-> text_fails d j tp).
Proof.
  intros fuel d p pe e d1 k T G F NA UR SH A. eapply added_quiet; try eassumption; [apply normal_any, tidy_reachable, T|apply C18_links_agree_partial, T].
Qed.
Print Assumptions C71_adding_keeps_text_partial.
(* the same for annotate, for what is not put in a layer *)
Theorem C71_annotating_keeps_text_partial : forall fuel d p pe e d1 k, tidy d -> get_elementdata d p = Some pe -> fresh_for d e -> nothing_awaits d e ->
  ~ In (e_type e) (group_elementtypes EG_Span) -> unread (e_type pe) (e_type e) -> shielded d p -> annotate fuel d p e = (d1, Ok k) ->
  forall j tp, get_elementdata d j <> None -> good_request d tp ->
  good_request d1 tp /\ (forall t, text_is d1 j tp t <-> text_is d j tp t) /\ (text_fails d1 j tp <-> text_fails d j tp).
Proof.
  intros fuel d p pe e d1 k T G F NA NS UR SH A. destruct (annotate_inv _ _ _ _ _ _ A) as [(_ & X)|[(X & _)|((IS & _) & _)]]; [destruct (X k eq_refl)| |contradiction].
  destruct (add_checked_inv _ _ _ _ _ _ X) as [(_ & Y)|(_ & Y)]; [destruct (Y k eq_refl)|]. eapply C71_adding_keeps_text_partial; eassumption.
Qed.
Print Assumptions C71_annotating_keeps_text_partial.
(* spans annotated from a word or another structure element: whatever their type and wherever they are put *)
Theorem C71_spans_keep_text_partial : forall fuel d p pe e d1 k, settled d -> get_elementdata d p = Some pe -> p_wrefable (props (e_type pe)) = true \/ In (e_type pe) (group_elementtypes EG_Structure) ->
  In (e_type e) (group_elementtypes EG_Span) -> fresh_for d e -> nothing_awaits d e -> annotate fuel d p e = (d1, Ok k) ->
  forall j tp, get_elementdata d j <> None -> good_request d tp ->
  good_request d1 tp /\ (forall t, text_is d1 j tp t <-> text_is d j tp t) /\ (text_fails d1 j tp <-> text_fails d j tp).
Proof.
  intros fuel d p pe e d1 k ST G PS SP F NA A. eapply spanned_quiet; try eassumption. split; [exact SP|]. exists pe. auto.
Qed.
Print Assumptions C71_spans_keep_text_partial.
(* elements without IDs are not waited for *)
Theorem C71_no_ids_awaited : forall d e, ids_in e = [] -> nothing_awaits d e.
Proof. intros d e N w we id _ _ _ _ I'. rewrite N in I'. destruct I'. Qed.
Print Assumptions C71_no_ids_awaited.
(* a lemma added to the first word; a span over two words, annotated from the sentence and from a word *)
Definition text_now (d : document) (k : nat) : string := match doc_text fuel1 d k tp_default with Ok t => t | _ => "?" end.
Example C71_nonvacuous : settled ex_doc /\ good_request ex_doc tp_default /\ text_now ex_doc 0 = "hello cruel world" /\
  (let e := e_attr ET_PosAnnotation [A_Class "greeting"; A_Set "posset2"] in fresh_for ex_doc e /\ nothing_awaits ex_doc e /\ unread ET_Word (e_type e) /\ shielded ex_doc 3 /\
     exists d1, annotate fuel1 ex_doc 3 e = (d1, Ok 17) /\ children_of d1 3 <> children_of ex_doc 3 /\ text_now d1 0 = "hello cruel world") /\
  (let e := ex_span "loc" ["w.1"; "w.2"] in fresh_for ex_doc e /\ nothing_awaits ex_doc e /\
     exists d1, annotate fuel1 ex_doc 10 e = (d1, Ok 19) /\ parent_of d1 19 = Some 12 /\ text_now d1 0 = "hello cruel world" /\ text_now d1 19 = "hello cruel" /\
       exists d2, annotate_span fuel1 d1 (ex_span "org" ["w.2"; "w.3"]) = (d2, Ok 23) /\ parent_of d2 23 = Some 20 /\ text_now d2 0 = "hello cruel world").
Proof.
  split; [exact ex_settled|]. split; [exists 0, "current", 0; vm_compute; auto|]. split; [vm_compute; reflexivity|]. split.
  - split; [apply freshb_spec; vm_compute; reflexivity|]. split; [apply C71_no_ids_awaited; reflexivity|]. split; [right; split; [reflexivity|discriminate]|]. split; [eapply shielded_own; [vm_compute; reflexivity|vm_compute; discriminate]|].
    eexists. split; [vm_compute; reflexivity|]. split; [vm_compute; discriminate|vm_compute; reflexivity].
  - split; [apply freshb_spec; vm_compute; reflexivity|]. split; [apply C71_no_ids_awaited; reflexivity|].
    eexists. split; [vm_compute; reflexivity|]. split; [vm_compute; reflexivity|]. split; [vm_compute; reflexivity|]. split; [vm_compute; reflexivity|]. eexists. split; [vm_compute; reflexivity|]. split; vm_compute; reflexivity.
Qed.
(* a sentence that ends in "cat sat", with a correction around "cat": a comment on the correction takes away the space after it *)
Definition ex_fix : elementdata := e_add_element (e_attr ET_Correction [A_Class "spelling"; A_Set "fixset"]) (ex_word "w.8" "cat" "noun").
Theorem C71_delimiter_refuted : exists d p e d1 k, tidy d /\ fresh_for d e /\ nothing_awaits d e /\ unread ET_Correction (e_type e) /\ (exists pe, get_elementdata d p = Some pe /\ e_type pe = ET_Correction) /\
  annotate fuel1 d p e = (d1, Ok k) /\ text_now d 10 = "hello cruel world cat sat" /\ text_now d1 10 = "hello cruel world catsat".
Proof.
  destruct (exec_careful fuel1 ex_doc [OAddElementTo 10 ex_fix; OAddElementTo 10 (ex_word "w.9" "sat" "verb")]) as [d|] eqn:E; [|vm_compute in E; discriminate].
  assert (T : tidy d) by (eapply exec_tidy; [exact ex_tidy|exact E]). vm_compute in E. injection E as <-.
  eexists _, 20, ex_comment. eexists _, _. split; [exact T|]. split; [apply freshb_spec; vm_compute; reflexivity|]. split; [apply C71_no_ids_awaited; reflexivity|]. split; [right; split; [reflexivity|discriminate]|].
  split; [eexists; split; vm_compute; reflexivity|]. split; [vm_compute; reflexivity|]. split; vm_compute; reflexivity.
Qed.
Print Assumptions C71_delimiter_refuted.
(* a word reference to an ID that is not there, put under an entity by hand: the text of the entity grows when a morpheme with that ID is added to a word *)
Definition ex_morphology : elementdata := e_add_element (e_attr ET_MorphologyLayer [A_Set "morphset"]) (e_with_text (e_attr ET_Morpheme [A_Id "m.1"; A_Set "morphset"; A_Class "stem"]) "hel").
Theorem C71_awaited_refuted : exists d p e d1 k, tidy d /\ fresh_for d e /\ unread ET_Word (e_type e) /\ shielded d p /\ annotate fuel1 d p e = (d1, Ok k) /\ text_now d 15 = "cruel world" /\ text_now d1 15 = "cruel world hel".
Proof.
  destruct (exec_careful fuel1 ex_doc [OAddElement (e_attr ET_WordReference [A_Idref "m.1"])]) as [d0|] eqn:E; [|vm_compute in E; discriminate].
  assert (T0 : tidy d0) by (eapply exec_tidy; [exact ex_tidy|exact E]). vm_compute in E. injection E as <-.
  match type of T0 with tidy ?x => assert (T : tidy (fst (attach_element x 15 17))) end.
  { eapply (tidy_step _ (OAttach 15 17)); [exact T0|]. split; [exact I|]. split; [split; [discriminate|apply (not_above_spec 9); vm_compute; reflexivity]|]. exists 0, (Ok tt). split; [vm_compute; reflexivity|]. split; [exact I|intros []]. }
  vm_compute in T. clear T0.
  eexists _, 3, ex_morphology. eexists _, _. split; [exact T|]. split; [apply freshb_spec; vm_compute; reflexivity|]. split; [right; split; [reflexivity|discriminate]|].
  split; [eapply shielded_own; [vm_compute; reflexivity|vm_compute; discriminate]|]. split; [vm_compute; reflexivity|]. split; vm_compute; reflexivity.
Qed.
Print Assumptions C71_awaited_refuted.
(* a hidden word put in the text content of a word: the text of the word is gone *)
Theorem C71_hidden_in_content_refuted : exists d p e d1 k, tidy d /\ fresh_for d e /\ nothing_awaits d e /\ silent (e_type e) = true /\ add_element_to fuel1 d p e = (d1, Ok k) /\
  text_now d 3 = "hello" /\ text_fails d1 3 tp_default.
Proof.
  exists ex_doc, 1, ex_hidden. eexists _, _. split; [exact ex_tidy|]. split; [apply freshb_spec; vm_compute; reflexivity|]. split.
  - intros w we id G W EI KN I'. assert (Q : id = "hw.1") by (cbn in I'; destruct I' as [Q|[]]; auto). subst id. clear KN I'. do 17 (destruct w as [|w]; [vm_compute in G; injection G as <-; vm_compute in EI; discriminate EI|]). vm_compute in G. destruct w; discriminate.
  - split; [reflexivity|]. split; [vm_compute; reflexivity|]. split; [vm_compute; reflexivity|exists fuel1; eexists; vm_compute; reflexivity].
Qed.
Print Assumptions C71_hidden_in_content_refuted.
