(* Saving a loaded document: the tags and the content are written as they were. *)
From Coq Require Import String List Bool Arith NArith Lia.
From Verif Require Import Base BaseFacts Types TypesFacts SpecTable Attrib AttribFacts Element Store StoreFacts Metadata Document Select DocOps Xml Parser Serialiser History Spec
  FrameFacts InvFacts DocFacts Examples StoreThms InternFacts EncodeFacts PropsEncode LinkFacts TreeFacts ForestFacts SelSpec SelectFacts PropsLinks PropsQuery SerSpec PropsSer ParseSpec ParseFacts PropsParse PropsProv RoundFacts RoundProv RoundSpec RoundTree PropsRound PropsLoad RefFacts PropsTree SpanSpec ResaveSpec.
Import ListNotations.
Open Scope string_scope.
Open Scope list_scope.

Lemma refs_invisible n : filter visible (refs n) = [].
Proof. destruct n as [a b c s]; unfold refs; destruct a, b, c, s; reflexivity. Qed.
Lemma refs_not_plain n : filter plain_value (refs n) = [].
Proof. destruct n as [a b c s]; unfold refs; destruct a, b, c, s; reflexivity. Qed.
(* in a stored element only the plain attributes are written as they are *)
Lemma visible_plain d k e : full_ok d -> get_elementdata d k = Some e -> filter visible (e_attribs e) = filter plain_value (e_attribs e).
Proof.
  intros (_ & _ & _ & EO) G. destruct (EO _ _ G) as (p & n & AE & PL & RO). cbn in AE. rewrite AE, !filter_app, refs_invisible, refs_not_plain, !app_nil_r. clear - PL.
  induction PL as [|a l P PL IH]; [reflexivity|]. cbn [filter]. rewrite IH. destruct a; cbn in P |- *; try reflexivity; destruct P; discriminate.
Qed.

Section Tag.
Variables (O : oracle) (d d' : document) (k k' : nat) (e e' : elementdata).
Hypotheses (F : full_ok d) (F' : full_ok d') (AG : agree d d') (RM : room d') (FC : features_complete d) (BL : bare_layers_plain d)
  (G : get_elementdata d k = Some e) (G' : get_elementdata d' k' = Some e') (TY : e_type e' = e_type e) (SA : same_attributes d d' e e') (SR : same_references d d' e e').
Lemma sole_same j : sole_declaration d j <-> sole_declaration d' j.
Proof.
  destruct AG as [S N _]. split; intros (x & GX & H).
  - destruct (S _ _ GX) as (y & GY & TYY & _). exists y. split; [exact GY|]. intros i z GZ TZ. destruct (get_declaration d i) as [u|] eqn:GU; [|rewrite (N _ GU) in GZ; discriminate].
    destruct (S _ _ GU) as (z' & GZ' & TU & _). rewrite GZ in GZ'. injection GZ' as <-. apply (H i u GU). congruence.
  - destruct (get_declaration d j) as [u|] eqn:GU; [|rewrite (N _ GU) in GX; discriminate]. destruct (S _ _ GU) as (x' & GX' & TU & _). rewrite GX in GX'. injection GX' as <-. exists u. split; [exact GU|].
    intros i z GZ TZ. destruct (S _ _ GZ) as (y & GY & TYY & _). apply (H i y GY). congruence.
Qed.
Lemma not_marked_none : ~ marked_tag d e -> forall a, tag_attributes O d e a -> Forall2 (shown O) (filter plain_value (e_attribs e)) a.
Proof.
  intros NM a (own & set & subset & class & proc & -> & OW & M). rewrite (visible_plain d k e F G) in OW.
  assert (E : set = None /\ subset = None /\ class = None /\ proc = None).
  { destruct F as (_ & _ & _ & EO). destruct (EO _ _ G) as (p & n & AE & PL & RO). cbn in AE. rewrite (rep_dec e p n AE PL) in M. destruct (en_dec n) as [dk|] eqn:ED; [|exact M]. pose proof (rep_dec e p n AE PL) as RD. rewrite ED in RD.
    destruct M as (S1 & S2 & SB & SC & P1 & P2). split; [|split; [|split]].
    - destruct set as [s|]; [|reflexivity]. exfalso. apply NM. left. exists s, dk. destruct (sole_decidable d dk) as [Q|Q]; [specialize (S1 (or_introl Q)); discriminate|]. destruct (et_eqb_spec (e_type e) ET_Feature) as [T|T]; [specialize (S1 (or_intror T)); discriminate|]. auto.
    - destruct subset as [x|]; [|reflexivity]. exfalso. apply NM. right. right. left. eauto.
    - destruct class as [x|]; [|reflexivity]. exfalso. apply NM. right. left. eauto.
    - destruct proc as [x|]; [|reflexivity]. exfalso. apply NM. right. right. right. exists x, dk. pose proof (rep_proc_key e p n AE PL) as RK. rewrite RK in *. destruct (en_proc n) as [pk|] eqn:EP.
      + exists pk. assert (NS : ~ sole_processor d dk pk) by (intros Q; specialize (P1 pk eq_refl Q); discriminate). split; [exact RD|]. split; [reflexivity|]. split; [exact NS|]. apply P2. intros q Q. injection Q as <-. exact NS.
      + exfalso. assert (Z : r_processor d e = Ok (Some x)) by (apply P2; discriminate). rewrite (rep_proc d e p n AE PL), EP in Z. discriminate. }
  destruct E as (-> & -> & -> & ->). cbn [given app]. rewrite app_nil_r. exact OW.
Qed.
Lemma subset_feature x : r_subset d' e' = Ok (Some x) -> e_type e = ET_Feature.
Proof.
  destruct F' as (_ & _ & _ & EO). destruct (EO _ _ G') as (p & n & AE & PL & RO). cbn in AE. rewrite (rep_subset d' e' p n AE PL). destruct (en_subset n) as [sk|] eqn:ES.
  - intros _. rewrite <- TY. apply (ro_subset _ _ _ RO sk ES).
  - destruct (obind (en_dec n) (get_declaration d')); discriminate.
Qed.
Lemma feature_no_layer : group_contains EG_Layer ET_Feature = false.
Proof. reflexivity. Qed.
Lemma tag_same a : tag_attributes O d e a -> tag_attributes O d' e' a.
Proof.
  intros T. pose proof (visible_plain d' k' e' F' G') as VP. pose proof F' as (_ & _ & _ & EO'). destruct (EO' _ _ G') as (p' & n' & AE' & PL' & RO'). cbn in AE'.
  pose proof (rep_dec e' p' n' AE' PL') as RD'. pose proof (rep_subset d' e' p' n' AE' PL') as RB'. pose proof (rep_class d' e' p' n' AE' PL') as RC'. pose proof (rep_proc d' e' p' n' AE' PL') as RP'. pose proof (rep_proc_key e' p' n' AE' PL') as RK'.
  (* a layer with a bare tag *)
  assert (BARE : bare_layer_tag d e -> filter plain_value (e_attribs e') = [] -> r_class d' e' = Ok None -> r_processor d' e' = Ok None -> tag_attributes O d' e' a).
  { intros BT PE CN PN. destruct (BL _ _ G BT) as (PN0 & SO). pose proof (not_marked_none (proj2 BT) a T) as OW. rewrite PN0 in OW. inversion OW; subst. exists [], None, None, None, None. split; [reflexivity|]. split; [rewrite VP, PE; constructor|].
    rewrite RD'. destruct (en_dec n') as [dk|] eqn:ED; [|auto]. assert (SD : sole_declaration d' dk).
    { destruct (ro_dec _ _ _ RO' dk ED) as (dec & GD & TD). destruct (get_declaration d dk) as [u|] eqn:GU; [|rewrite (ag_none _ _ AG _ GU) in GD; discriminate].
      destruct (ag_some _ _ AG _ _ GU) as (dec' & GD' & TU & _). rewrite GD in GD'. injection GD' as <-. apply sole_same, (SO dk u GU). rewrite TY in TD.
      destruct (ro_kind _ _ _ RO') as [Q|Q]; [congruence|exfalso; rewrite TY in Q; destruct BT as (LG & _); rewrite Q, feature_no_layer in LG; discriminate|]. rewrite TY in Q. destruct (et_annotationtype (e_type e)) as [t|]; [|congruence]. rewrite <- TU, (TD t eq_refl). reflexivity. }
    split; [auto|]. split; [intros Q; contradiction|]. split; [|split; [exact CN|split; [auto|intros _; exact PN]]].
    destruct (r_subset d' e') as [[x|]| | |] eqn:RS; try discriminate; [|reflexivity]. exfalso. apply subset_feature in RS. destruct BT as (LG & _). rewrite RS, feature_no_layer in LG. discriminate. }
  assert (CLN : bare_layer_tag d e -> same_attributes d d' e e' -> filter plain_value (e_attribs e') = [] /\ r_class d' e' = Ok None).
  { intros BT _. destruct (BL _ _ G BT) as (PN0 & SO). destruct SA as [(_ & LR)|(PE & _ & _ & CR & _)].
    - destruct LR as [E|(dk & dec & E & _)]; rewrite E; rewrite ?PN0; (split; [reflexivity|]); rewrite RC'; destruct (en_class n') as [ck|] eqn:EC; try reflexivity; exfalso; rewrite AE' in E; unfold refs in E; rewrite EC in E;
        [rewrite PN0 in E; destruct p'; [destruct (en_dec n'); discriminate|discriminate]|].
      destruct p' as [|q p']; [|injection E as -> E; apply (f_equal (@length _)) in E; rewrite !app_length in E; cbn in E; lia].
      destruct (ro_class _ _ _ RO' ck EC) as (dk2 & _ & _ & ED & _). rewrite ED in E. cbn in E. injection E as _ E. discriminate.
    - split; [congruence|]. rewrite RC'. rewrite <- RC'. destruct (r_class d' e') as [[c|]| | |] eqn:RS; try discriminate; [|reflexivity]. exfalso. apply (proj2 BT). right. left. exists c. apply CR; [|reflexivity].
      intros Q. destruct BT as (LG & _). rewrite Q, feature_no_layer in LG. discriminate. }
  destruct SR as [(BT & PN & _)|[(NM & DN & _ & PN)|(MK & DK & RS & _ & o & PO & PI)]].
  - destruct (CLN BT SA) as (PE & CN). auto.
  - destruct SA as [(BT & _)|(PE & _)].
    + destruct (CLN BT SA) as (PE & CN). apply BARE; assumption.
    + pose proof (not_marked_none NM a T) as OW. exists a, None, None, None, None. split; [cbn; rewrite app_nil_r; reflexivity|]. split; [rewrite VP, PE; exact OW|]. rewrite DN. auto.
  - destruct SA as [(BT & _)|(PE & _ & CF & CR & BF)]; [destruct (proj2 BT MK)|]. destruct T as (own & set & subset & class & proc & -> & OW & M). exists own, set, subset, class, proc. split; [reflexivity|].
    split; [rewrite VP, PE, <- (visible_plain d k e F G); exact OW|]. rewrite DK. destruct (r_declaration_key e) as [[dk|]| | |] eqn:RD; try exact M. destruct M as (S1 & S2 & SB & SC & P1 & P2). rewrite TY.
    split; [intros [Q|Q]; apply S1; [left; apply sole_same, Q|right; exact Q]|]. split; [intros Q1 Q2; rewrite RS; apply S2; [intros Q; apply Q1, sole_same, Q|exact Q2]|].
    assert (ES : r_subset d' e' = Ok subset).
    { destruct subset as [x|]; [apply BF; assumption|]. destruct (r_subset d' e') as [[x|]| | |] eqn:E; try discriminate; [|reflexivity]. apply subset_feature in E. destruct (FC _ _ G E) as ((y & Y) & _). congruence. }
    assert (EC : r_class d' e' = Ok class).
    { destruct class as [x|]; [apply CF; [exact RM|intros Q; apply (FC _ _ G Q)|exact SC]|]. destruct (r_class d' e') as [[x|]| | |] eqn:E; try discriminate; [|reflexivity].
      destruct (et_eqb_spec (e_type e) ET_Feature) as [Q|Q]; [destruct (FC _ _ G Q) as (_ & (y & Y)); congruence|]. rewrite (CR Q _ eq_refl) in SC. congruence. }
    split; [exact ES|]. split; [exact EC|].
    (* the processor *)
    pose proof F as (_ & _ & _ & EO). destruct (EO _ _ G) as (p & n & AE & PL & RO). cbn in AE. pose proof (rep_dec e p n AE PL) as RD0. rewrite RD in RD0. injection RD0 as ED.
    pose proof (rep_proc d e p n AE PL) as RP. pose proof (rep_proc_key e p n AE PL) as RK. rewrite RD' in DK. injection DK as ED'. symmetry in ED.
    (* if the declaration in either document has one processor, then it is that of the element *)
    assert (ONE : forall pk x q, en_proc n = Some pk -> get_declaration d dk = Some x -> d_processors x = [q] -> q = pk).
    { intros pk x q EP GX DP. destruct (ro_listed _ _ _ RO pk dk EP ED) as (x' & GX' & I'). rewrite GX in GX'. injection GX' as <-. rewrite DP in I'. destruct I' as [I'|[]]. exact I'. }
    assert (ONE' : forall pk x q, en_proc n' = Some pk -> get_declaration d' dk = Some x -> d_processors x = [q] -> q = pk).
    { intros pk x q EP GX DP. destruct (ro_listed _ _ _ RO' pk dk EP ED') as (x' & GX' & I'). rewrite GX in GX'. injection GX' as <-. rewrite DP in I'. destruct I' as [I'|[]]. exact I'. }
    destruct (ro_dec _ _ _ RO dk ED) as (x & GX & _). destruct (ag_some _ _ AG _ _ GX) as (y & GY & _ & _ & FF).
    destruct proc as [id|].
    + (* shown before *)
      assert (SP : shows_processor d e id).
      { exists dk. destruct (en_proc n) as [pk|] eqn:EP.
        - exists pk. assert (NS : ~ sole_processor d dk pk) by (intros Q; specialize (P1 pk RK Q); discriminate). split; [exact RD|]. split; [exact RK|]. split; [exact NS|]. apply P2. intros q Q. rewrite RK in Q. injection Q as <-. exact NS.
        - exfalso. assert (Z : r_processor d e = Ok (Some id)) by (apply P2; intros q Q; rewrite RK in Q; discriminate). rewrite RP in Z. discriminate. }
      assert (EO1 : o = Some id) by (apply PI; left; exact SP). subst o. split; [|intros _; exact PO]. intros q Q (y' & GY' & DP). exfalso. rewrite GY in GY'. injection GY' as <-.
      destruct SP as (dk2 & pk & E1 & E2 & NS & _). rewrite RD in E1. injection E1 as <-. rewrite RK in E2. injection E2 as E2. rewrite DP in FF. inversion FF as [|q0 q1 l0 l1 QQ FF0 EQ0]; subst. inversion FF0; subst. apply NS. exists x. split; [exact GX|].
      rewrite <- EQ0. f_equal. apply (ONE pk x q0 E2 GX). auto.
    + split; [auto|]. intros NS'. rewrite PO. f_equal. destruct o as [id|]; [exfalso|reflexivity]. destruct (proj1 (PI id) eq_refl) as [SP|(NF & dk2 & pk & q & E1 & (x' & GX' & DP) & GQ & IQ)].
      * destruct SP as (dk2 & pk & E1 & E2 & NS & E3). rewrite RD in E1. injection E1 as <-. assert (Z : r_processor d e = Ok None) by (apply P2; intros q Q; rewrite E2 in Q; injection Q as <-; exact NS). congruence.
      * rewrite RD in E1. injection E1 as <-. rewrite GX in GX'. injection GX' as <-. rewrite DP in FF. inversion FF as [|q0 q1 l0 l1 QQ FF0 EQ0 EQ1]; subst. inversion FF0; subst.
        rewrite RP' in PO. destruct (en_proc n') as [pk'|] eqn:EP'; [|discriminate]. apply (NS' pk' RK'). exists y. split; [exact GY|]. rewrite <- EQ1. f_equal. apply (ONE' pk' y q1 eq_refl GY). auto.
Qed.
End Tag.

(* ---------------------------------------------------------------- the whole tree *)
Definition same_both (d d' : document) (e e' : elementdata) : Prop := same_attributes d d' e e' /\ same_references d d' e e'.
(* element j of d was read as element j' of d' *)
Definition read_as (d d' : document) (j j' : nat) : Prop :=
  exists e e', get_elementdata d j = Some e /\ get_elementdata d' j' = Some e' /\ e_type e' = e_type e /\ same_both d d' e e'.
Section Tree.
Variables (O : oracle) (d d' : document).
Hypotheses (F : full_ok d) (F' : full_ok d') (AG : agree d d') (RM : room d') (FC : features_complete d) (BL : bare_layers_plain d).
Lemma tag_across k k' e e' a : get_elementdata d k = Some e -> get_elementdata d' k' = Some e' -> e_type e' = e_type e -> same_both d d' e e' -> tag_attributes O d e a -> tag_attributes O d' e' a.
Proof. intros G G' TY (SA & SR) T. exact (tag_same O d d' k k' e e' F F' AG RM FC BL G G' TY SA SR a T). Qed.
Lemma nodes_across l ns ks : nodes_of O d l ns ks -> forall q l' n, same_content (same_both d d') d d' q l l' n -> exists ks', nodes_of O d' l' ns ks' /\ Forall2 (read_as d d') ks ks' /\ length ks = n.
Proof.
  intros N. induction N as [|s l ns ks B N IH|s l ns ks B N IH|s l ns ks B N IH|c e a inside l ns ks1 ks G T N1 IH1 N2 IH2]; intros q l' n SC.
  - inversion SC; subst. exists []. repeat constructor.
  - destruct (IH _ _ _ SC) as (ks' & N' & FF & L). exists ks'. split; [constructor; assumption|auto].
  - inversion SC as [|p0 s0 l0 l0' n0 SC'| |]; subst. destruct (IH _ _ _ SC') as (ks' & N' & FF & L). exists ks'. split; [constructor; assumption|auto].
  - inversion SC as [| |p0 s0 l0 l0' n0 SC'|]; subst. destruct (IH _ _ _ SC') as (ks' & N' & FF & L). exists ks'. split; [constructor; assumption|auto].
  - inversion SC as [| | |p0 c0 c' l0 l0' m n0 ST SC']; subst. inversion ST as [par k k' e0 e0' m0 G0 G0' TY PA SB SCI]; subst. rewrite G in G0. injection G0 as <-.
    destruct (IH1 _ _ _ SCI) as (ks1' & N1' & F1 & L1). destruct (IH2 _ _ _ SC') as (ks' & N' & FF & L). exists (c' :: ks1' ++ ks'). split; [|split].
    + rewrite <- TY. econstructor; [exact G0'|eapply tag_across; eassumption|exact N1'|exact N'].
    + constructor; [exists e, e0'; auto|]. apply Forall2_app; assumption.
    + cbn [length]. rewrite app_length. lia.
Qed.
(* The emptiness of the content; [spans]: an element that is part of no span annotation was read as one that is part of none. *)
Hypotheses (SPF : forall k k' e e', read_as d d' k k' -> get_elementdata d k = Some e -> get_elementdata d' k' = Some e' -> span_refs e <> [] -> content e <> [] \/ span_refs e' <> []) (spans : forall k k' e e', read_as d d' k k' -> get_elementdata d k = Some e -> get_elementdata d' k' = Some e' -> span_refs e = [] -> span_refs e' = []).
Lemma no_spans_kept l : flat_map (fun x => match x with DSpanReference s => [s] | _ => [] end) l = [] -> kept l = l.
Proof. induction l as [|x l IH]; [reflexivity|]. intros H. unfold kept in *. cbn [filter]. destruct x; cbn in H |- *; try (rewrite IH by exact H; reflexivity). discriminate. Qed.
Lemma kept_nil l : kept l = [] -> l = [] \/ flat_map (fun x => match x with DSpanReference s => [s] | _ => [] end) l <> [].
Proof. destruct l as [|x l]; [auto|]. intros H. right. unfold kept in H. cbn [filter] in H. destruct x; cbn in H; discriminate. Qed.
Lemma same_nil q l l' n : same_content (same_both d d') d d' q l l' n -> (l = [] <-> l' = []).
Proof. intros H. inversion H; subst; split; congruence. Qed.
Lemma xml_kept f l x : f = false \/ kept l = l -> xml_content O d' f (kept l) x -> xml_content O d' f l x.
Proof.
  intros [->|E] H; [|rewrite E in H; exact H]. revert x H. induction l as [|y l IH]; intros x H; [exact H|]. unfold kept in *. cbn [filter] in H. destruct y; cbn in H.
  - inversion H; subst. constructor. auto.
  - inversion H; subst. constructor; [|auto]. cbn [andb] in *. assumption.
  - inversion H; subst. constructor. auto.
  - constructor. auto.
  - inversion H.
Qed.
Lemma kept_cons_element c r : kept (DElement c :: r) = DElement c :: kept r.
Proof. reflexivity. Qed.
Lemma xml_across f k l : xml_of O d f k l -> forall par k' n, same_tree (same_both d d') d d' par k k' n -> (f = true -> end_unspanned d k) -> xml_of O d' f k' l.
Proof.
  revert f k l. apply (xml_of_mut O d (fun f k l _ => forall par k' n, same_tree (same_both d d') d d' par k k' n -> (f = true -> end_unspanned d k) -> xml_of O d' f k' l)
    (fun f dat l _ => forall q dat' n, same_content (same_both d d') d d' q (kept dat) dat' n -> (f = true -> kept dat = dat /\ forall l c, dat = l ++ [DElement c] -> end_unspanned d c) -> xml_content O d' f dat' l)).
  - intros f k e a G D TA par k' n ST _. inversion ST as [par0 k0 k0' e0 e' m0 G0 G' TY PA SB SC]; subst. rewrite G in G0. injection G0 as <-. rewrite <- TY. apply xml_empty; [exact G'| |eapply tag_across; eassumption].
    assert (CN : content e = []) by (unfold content; rewrite D; reflexivity). rewrite CN in SC. inversion SC as [p0 E1 E2| | |]; subst. destruct (kept_nil (e_data e')) as [Q|Q]; [unfold kept; symmetry; assumption|exact Q|exfalso].
    apply Q. apply (spans k k' e e'); [exists e, e'; auto|exact G|exact G'|]. unfold span_refs. rewrite D. reflexivity.
  - intros f k e a body G D TA XC IH par k' n ST EN. inversion ST as [par0 k0 k0' e0 e' m0 G0 G' TY PA SB SC]; subst. rewrite G in G0. injection G0 as <-. rewrite <- TY.
    assert (CN : e_data e' <> []).
    { intros Q. assert (Q' : content e = []) by (apply (same_nil _ _ _ _ SC); unfold content; rewrite Q; reflexivity). destruct (kept_nil (e_data e) Q') as [Z|Z]; [contradiction|].
      assert (RK : read_as d d' k k') by (exists e, e'; auto). destruct (SPF k k' e e' RK G G' Z) as [Y|Y]; [contradiction|]. apply Y. unfold span_refs. rewrite Q. reflexivity. }
    assert (SE : f = true -> span_refs e = [] /\ forall l c, e_data e = l ++ [DElement c] -> end_unspanned d c).
    { intros FT. specialize (EN FT). inversion EN as [k1 e1 G1 S1 L1]; subst. rewrite G in G1. injection G1 as <-. auto. }
    apply xml_full; [exact G'| |eapply tag_across; eassumption|].
    + exact CN.
    + apply xml_kept.
      * destruct f; [right|left; reflexivity]. destruct (SE eq_refl) as (S1 & _). apply no_spans_kept. apply (spans k k' e e'); [exists e, e'; auto|exact G|exact G'|exact S1].
      * eapply IH; [exact SC|]. intros FT. destruct (SE FT) as (S1 & S2). split; [apply no_spans_kept, S1|exact S2].
  - intros f q dat' n SC _. inversion SC; subst. constructor.
  - intros f s rest l XC IH q dat' n SC EN. inversion SC as [|p0 s0 l0 l0' n0 SC'| |]; subst. constructor. eapply IH; [exact SC'|]. intros FT. destruct (EN FT) as (E1 & E2). split; [injection E1 as E1; exact E1|]. intros m c ->. apply (E2 (DText s :: m)). reflexivity.
  - intros f s rest l XC IH q dat' n SC EN. inversion SC as [| |p0 s0 l0 l0' n0 SC'|]; subst. constructor. eapply IH; [exact SC'|]. intros FT. destruct (EN FT) as (E1 & E2). split; [injection E1 as E1; exact E1|]. intros m c ->. apply (E2 (DComment s :: m)). reflexivity.
  - intros f s rest l XC IH q dat' n SC EN. eapply IH; [exact SC|]. intros FT. destruct (EN FT) as (E1 & E2). exfalso. unfold kept in E1. cbn [filter is_spanref negb] in E1.
    assert (L : length (filter (fun x => negb (is_spanref x)) rest) <= length rest) by (clear; induction rest as [|y r IH]; [apply le_n|]; cbn [filter]; destruct (negb (is_spanref y)); cbn [length]; lia). rewrite E1 in L. cbn [length] in L. lia.
  - intros f c rest lc l XO IHO XC IH q dat' n SC EN. rewrite kept_cons_element in SC. inversion SC as [| | |p0 c0 c' l0 l0' m n0 ST SC']; subst. pose proof (same_nil _ _ _ _ SC') as SN.
    assert (NIL : f && is_nil rest = f && is_nil l0').
    { destruct f; [|reflexivity]. destruct (EN eq_refl) as (E1 & _). rewrite kept_cons_element in E1. injection E1 as E1. rewrite E1 in SN. cbn [andb]. destruct rest, l0'; try reflexivity; exfalso; destruct SN as (S1 & S2); [specialize (S1 eq_refl)|specialize (S2 eq_refl)]; discriminate. }
    constructor.
    + rewrite <- NIL. eapply IHO; [exact ST|]. intros B. apply andb_prop in B. destruct B as (FT & NR). destruct (EN FT) as (_ & E2). apply (E2 []). destruct rest; [reflexivity|discriminate].
    + eapply IH; [exact SC'|]. intros FT. destruct (EN FT) as (E1 & E2). rewrite kept_cons_element in E1. injection E1 as E1. split; [exact E1|]. intros u x ->. apply (E2 (DElement c :: u)). reflexivity.
Qed.
End Tree.
