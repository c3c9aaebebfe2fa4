(* Facts for C69: the same tree gives the same text. *)
From Coq Require Import String List Bool Arith NArith Lia.
From Verif Require Import Base BaseFacts Types TypesFacts SpecTable Attrib AttribFacts Element Store StoreFacts Metadata Document Select DocOps Text Xml Parser Serialiser History Spec
  FrameFacts InvFacts DocFacts Examples StoreThms InternFacts EncodeFacts PropsEncode LinkFacts TreeFacts ForestFacts SelSpec SelectFacts PropsLinks PropsQuery SerSpec PropsSer ParseSpec ParseFacts PropsParse PropsProv RoundFacts RoundProv RoundSpec RoundTree PropsRound PropsLoad RefFacts PropsTree PropsRefs
  SpanSpec SpanLinks PropsSpans ResaveSpec ResaveFacts PropsResave TextSpec TextFacts NoPanic.
Import ListNotations.
Open Scope string_scope.
Open Scope list_scope.

(* ---------------------------------------------------------------- span references play no role *)
Lemma container_kept d rec l : forall acc, container_loop d rec acc (RoundTree.kept l) = container_loop d rec acc l.
Proof.
  induction l as [|x l IH]; intros acc; [reflexivity|]. destruct x; cbn [RoundTree.kept filter is_spanref negb container_loop]; try apply IH. destruct (get_elementdata d k) as [c|]; [|apply IH].
  cbv zeta. destruct (p_printable _); [|apply IH]. destruct (rec c); cbn [rbind]; try reflexivity. apply IH.
Qed.
Lemma children_kept d rec del l : forall st tc, children_loop d rec del st tc (RoundTree.kept l) = children_loop d rec del st tc l.
Proof.
  induction l as [|x l IH]; intros st tc; [reflexivity|]. destruct x; cbn [RoundTree.kept filter is_spanref negb children_loop]; try apply IH. destruct (get_elementdata d k) as [c|]; [|apply IH].
  destruct (text_child (e_type c)); [destruct (text_part rec del c st); cbn [rbind]; try reflexivity; apply IH|]. destruct (et_eqb (e_type c) ET_WordReference).
  - destruct (r_resolve d c) as [[t|]| | |]; cbn [rbind]; try reflexivity; [|apply IH]. destruct (text_part rec del t st); cbn [rbind]; try reflexivity; apply IH.
  - destruct (et_eqb (e_type c) ET_TextContent); apply IH.
Qed.
Lemma last_kept d l : last_element d (RoundTree.kept l) = last_element d l.
Proof.
  induction l as [|x l IH]; [reflexivity|]. destruct x; cbn [RoundTree.kept filter is_spanref negb last_element]; fold (RoundTree.kept l); rewrite IH; destruct (last_element d l); reflexivity.
Qed.

(* ---------------------------------------------------------------- related elements have the same text *)
Section Sim.
Variables (d d' : document) (rel : elementdata -> elementdata -> Prop).
Inductive rel_content : list datatype -> list datatype -> Prop :=
  | rel_nil : rel_content [] []
  | rel_text s l l' : rel_content l l' -> rel_content (DText s :: l) (DText s :: l')
  | rel_comment s l l' : rel_content l l' -> rel_content (DComment s :: l) (DComment s :: l')
  | rel_child c c' e e' l l' : get_elementdata d c = Some e -> get_elementdata d' c' = Some e' -> rel e e' ->
      (e_type e = ET_WordReference -> exists t t', r_resolve d e = Ok (Some t) /\ r_resolve d' e' = Ok (Some t') /\ rel t t') ->
      rel_content l l' -> rel_content (DElement c :: l) (DElement c' :: l').
Hypothesis (RT : forall e e', rel e e' -> e_type e' = e_type e)
  (RS : forall e e', rel e e' -> existsb (ab_eqb AB_SPACE) (p_optional_attribs (props (e_type e))) = true -> space_of e' = space_of e)
  (RC : forall e e', rel e e' -> rel_content (content e) (content e')).
Lemma last_same l l' : rel_content l l' -> match last_element d l, last_element d' l' with Some c, Some c' => rel c c' | None, None => True | _, _ => False end.
Proof.
  intros R. induction R as [|s l l' R IH|s l l' R IH|c c' e e' l l' G G' RE _ R IH]; cbn [last_element]; [exact I| | |];
    destruct (last_element d l), (last_element d' l'); try exact IH; try contradiction. rewrite G, G'. exact RE.
Qed.
Lemma delimiter_same f rt : forall e e', rel e e' -> get_textdelimiter f d' rt e' = get_textdelimiter f d rt e.
Proof.
  induction f as [|f IH]; intros e e' R; [reflexivity|]. cbn [get_textdelimiter]. rewrite (RT _ _ R). destruct (p_textdelimiter _) as [s|].
  - destruct (existsb _ _) eqn:E; [rewrite (RS _ _ R E)|]; reflexivity.
  - pose proof (last_same _ _ (RC _ _ R)) as L. unfold content in L. change (filter (fun x => negb (is_spanref x)) (e_data e)) with (RoundTree.kept (e_data e)) in L.
    change (filter (fun x => negb (is_spanref x)) (e_data e')) with (RoundTree.kept (e_data e')) in L. rewrite !last_kept in L.
    destruct (last_element d (e_data e)), (last_element d' (e_data e')); try contradiction; [apply IH, L|reflexivity].
Qed.
Lemma container_same rec rec' : (forall e e', rel e e' -> rec' e' = rec e) -> forall l l', rel_content l l' -> forall acc, container_loop d' rec' acc l' = container_loop d rec acc l.
Proof.
  intros H l l' R. induction R as [|s l l' R IH|s l l' R IH|c c' e e' l l' G G' RE _ R IH]; intros acc; cbn [container_loop]; [reflexivity|apply IH|apply IH|].
  rewrite G, G'. cbv zeta. rewrite (RT _ _ RE). destruct (p_printable _); [|apply IH]. rewrite (H _ _ RE). destruct (rec e); cbn [rbind]; try reflexivity. apply IH.
Qed.
Lemma part_same rec rec' del del' e e' st : (forall p, rec' e' p = rec e p) -> del' e' = del e -> text_part rec' del' e' st = text_part rec del e st.
Proof. intros A B. unfold text_part. destruct st as [t s]. rewrite A, B. reflexivity. Qed.
Definition rel_option (a b : option elementdata) : Prop := match a, b with Some x, Some y => rel x y | None, None => True | _, _ => False end.
Lemma children_same rec rec' del del' : (forall e e', rel e e' -> forall p, rec' e' p = rec e p) -> (forall e e', rel e e' -> del' e' = del e) ->
  forall l l', rel_content l l' -> forall st tc tc', rel_option tc tc' ->
    match children_loop d rec del st tc l, children_loop d' rec' del' st tc' l' with
    | Ok (t, c), Ok (t', c') => t' = t /\ rel_option c c'
    | a, b => match a, b with Ok _, _ | _, Ok _ => False | Err x, Err y => x = y | Panic, Panic | OutOfFuel, OutOfFuel => True | _, _ => False end
    end.
Proof.
  intros H K l l' R. induction R as [|s l l' R IH|s l l' R IH|c c' e e' l l' G G' RE RW R IH]; intros st tc tc' T; cbn [children_loop]; [split; [reflexivity|exact T]|apply IH, T|apply IH, T|].
  rewrite G, G', (RT _ _ RE). destruct (text_child (e_type e)).
  - rewrite (part_same rec rec' del del' e e' st (H _ _ RE) (K _ _ RE)). destruct (text_part rec del e st); cbn [rbind]; auto. apply IH, T.
  - destruct (et_eqb_spec (e_type e) ET_WordReference) as [W|W].
    + destruct (RW W) as (t & t' & -> & -> & RTT). cbn [rbind]. rewrite (part_same rec rec' del del' t t' st (H _ _ RTT) (K _ _ RTT)). destruct (text_part rec del t st); cbn [rbind]; auto. apply IH, T.
    + destruct (et_eqb (e_type e) ET_TextContent); [apply IH, RE|apply IH, T].
Qed.
Lemma text_same f a b st rt a' b' : forall e e', rel e e' -> forall p, text_by_key f d' a' b' st rt e' p = text_by_key f d a b st rt e p.
Proof.
  revert st. induction f as [|f IH]; intros st e e' R p; [reflexivity|]. cbn [text_by_key]. cbv zeta. rewrite (RT _ _ R). destruct (p_textcontainer _).
  - rewrite <- (container_kept d' _ (e_data e')), <- (container_kept d _ (e_data e)). apply container_same; [|apply RC, R]. intros x x' RX. apply IH, RX.
  - destruct (_ || _); [reflexivity|]. rewrite <- (children_kept d' _ _ (e_data e')), <- (children_kept d _ _ (e_data e)).
    pose proof (children_same (text_by_key f d a b false rt) (text_by_key f d' a' b' false rt) (get_textdelimiter f d rt) (get_textdelimiter f d' rt) (fun x x' RX q => IH false x x' RX q) (fun x x' RX => delimiter_same f rt x x' RX)
      _ _ (RC _ _ R) ("", "") None None I) as CS. unfold content in CS. change (filter (fun x => negb (is_spanref x)) (e_data e)) with (RoundTree.kept (e_data e)) in CS. change (filter (fun x => negb (is_spanref x)) (e_data e')) with (RoundTree.kept (e_data e')) in CS.
    destruct (children_loop d _ _ _ _ _) as [[t c]|x| |], (children_loop d' _ _ _ _ _) as [[t' c']|x'| |]; try contradiction; cbn [rbind]; try reflexivity; [|congruence].
    destruct CS as (-> & RO). unfold rel_option in RO. destruct c as [c|], c' as [c'|]; try contradiction; [|reflexivity]. rewrite (IH false c c' RO None). reflexivity.
Qed.
End Sim.

(* ---------------------------------------------------------------- the tree that was loaded, once more *)
(* [tied_in d d' e e']: the attributes are the same, there is at most one of each plain kind, and the ID of e finds e' in d' *)
Definition found_again (d d' : document) (e e' : elementdata) : Prop :=
  same_attributes d d' e e' /\ unique_types (filter plain_value (e_attribs e)) /\ forall id, e_id e = Some id -> exists k', e_key e' = Some k' /\ get_element_key_by_id d' id = Some k'.
Lemma id_of_other l : attribs_id (filter other l) = attribs_id l.
Proof. induction l as [|a l IH]; [reflexivity|]. destruct a; cbn; try exact IH; reflexivity. Qed.
Lemma unique_filter P l : unique_types l -> unique_types (filter P l).
Proof.
  unfold unique_types. induction l as [|a l IH]; intros H; [constructor|]. inversion H; subst. cbn [filter map]. destruct (P a); [|auto]. cbn [map]. constructor; [|auto].
  intros Q. apply in_map_iff in Q. destruct Q as (b & E & B). apply filter_In in B. match goal with N : ~ In _ _ |- _ => apply N end. rewrite <- E. apply in_map, B.
Qed.
Lemma store_add_finds d e ctx d1 k id : new_id d e -> store_add d e ctx = (d1, Ok k) -> e_id e = Some id -> get_element_key_by_id d1 id = Some k.
Proof.
  intros N S EI. pose proof (store_add_cases d e ctx) as C. rewrite S in C. cbn [fst snd] in C.
  inversion C as [d' e1 id' k' E I' J|d' e1 s E N' B IT IX|d' e1 E N' B|d' r E NR Q R1]; subst.
  - rewrite (N _ I') in J. discriminate.
  - unfold get_element_key_by_id, st_id_to_key. docs_g. rewrite IX, EI. apply smap_get_insert_same.
  - destruct r; discriminate || (exfalso; eapply NR; reflexivity).
Qed.
Lemma found_le a b id k : doc_le a b -> get_element_key_by_id a id = Some k -> get_element_key_by_id b id = Some k.
Proof. intros [(_ & X & _) _ _]. apply X. Qed.
Lemma loaded_tree fuel fuel' O p d root e w indent d' : tidy d -> get_elementdata d root = Some e -> (e_parent e <> None \/ root = 0) -> writable_doc d -> values_in_range O d -> props_ok normal p ->
  doc_xml fuel O d root = Ok w -> parse_document fuel' O p (reread indent w) = Ok d' ->
  exists n, same_tree (found_again d d') d d' None root 0 n /\ length (st_items (doc_elements d')) = n.
Proof.
  intros T G P WD VR GP W L.
  assert (F : full_ok d) by apply reachable_full, tidy_reachable, T.
  assert (F' : full_ok d') by (eapply reachable_full, reach_load; [exact GP|apply load_ok_normal|exact L]).
  assert (X : exists m body, w_metadata fuel d = Ok m /\ xml_of O d true root body /\ exists d1 d2 r2, loading indent fuel' O p (doc_id d) (m ++ body ++ [wnl; WEnd "FoLiA"]) d' d1 d2 r2).
  { destruct (C52_xml_is_tree_partial O d root e T G P) as (l & X & FX & _). unfold doc_xml in W. apply rbind_ok in W. destruct W as (m & M & W). apply rbind_ok in W. destruct W as (b & B & W). injection W as <-.
    unfold element_xml in FX. destruct (FX fuel) as [Q|Q]; rewrite B in Q; [discriminate|]. injection Q as ->. exists m, l. split; [exact M|]. split; [exact X|]. eapply load_parts, L. }
  destruct X as (m & body & M & X & d1 & d2 & r2 & LD).
  destruct (saved_body _ _ _ _ _ _ _ _ _ _ _ _ _ _ T G WD M X LD) as (a & inside & ev & ks & after & x & d3 & d4 & k & [TA XE NO _ FU NDI PA BT ST AP PE]).
  destruct (body_stored _ _ _ _ _ _ _ _ _ _ GP FU NDI PA ST AP) as (-> & L2 & F2 & F4 & FO & EL & S4 & L4 & PI & TX & NI & LE34).
  unfold parse_elements in PE. destruct (st_items (doc_elements d4)) as [|o0 l0]; [discriminate|]. clear o0 l0.
  destruct (content_built fuel' O d4 inside ev XE 0 [] (EvEnd NsFolia (et_as_str (e_type e)) :: after) d4 d' F4 (follows_refl d4) PI PE) as (d6 & l & n & PE6 & PI6 & GA & MD). cbn in PE6. injection PE6 as ->.
  pose proof (grows_at_le _ _ _ _ _ GA) as FO4. assert (LE3 : doc_le d3 d') by (eapply doc_le_trans; [exact LE34|apply FO4]).
  assert (IDOWN : forall c e a own feats, get_elementdata d c = Some e -> tag_attributes O d e a -> reads_attributes O (e_type e) (read_attrs [] a) own feats ->
    unique_types (filter plain_value (e_attribs e)) /\ attribs_id own = e_id e /\ feats = []).
  { intros c e0 a0 own fs G0 TA0 RA0. assert (VR0 : forall y, In y (e_attribs e0) -> attr_in_range O y) by (intros y Y; eapply VR; eassumption).
    destruct (own_read O d c e0 a0 own fs F G0 TA0 VR0 RA0) as [A B C _ _ _ _]. split; [rewrite <- C; apply unique_filter, B|]. split; [|exact A]. unfold e_id. rewrite <- (id_of_plain (e_attribs e0)), <- C, id_of_other. reflexivity. }
  destruct (parse_attributes_reads _ _ _ _ PA) as (fs & RA & _).
  exists (S n). split; [|pose proof (ga_len _ _ _ _ _ GA) as Q; unfold sh_len, st_len in Q, L4; rewrite Q, L4; reflexivity].
  assert (EL0 : element_is d' 0 (e_type e) None l). { apply element_sh. rewrite (ga_top _ _ _ _ _ GA _ S4). reflexivity. } destruct EL0 as (e' & G' & TY & PR & CT).
  assert (HG : forall p c e a own feats k' e', get_elementdata d c = Some e -> tag_attributes O d e a -> reads_attributes O (e_type e) (read_attrs [] a) own feats ->
    ParseFacts.stored d4 (sh_len d4) d' p (e_type e) own k' -> get_elementdata d' k' = Some e' -> e_type e' = e_type e -> feats = [] /\ found_again d d' e e').
  { intros p0 c e0 a0 own fs0 k' e0' G0 TA0 RA0 SD G0' TY0. assert (VR0 : forall y, In y (e_attribs e0) -> attr_in_range O y) by (intros y Y; eapply VR; eassumption).
    destruct (IDOWN _ _ _ _ _ G0 TA0 RA0) as (U0 & I0 & FE0). split; [exact FE0|]. destruct (stored_kept _ _ _ _ _ _ _ F' SD) as (KA0 & _). split; [eapply (attributes_same O d d' c e0 a0 own fs0 k' e0'); eassumption|]. split; [exact U0|].
    intros id EI. exists k'. split; [apply (full_key _ _ _ F' G0')|]. destruct SD as (_ & dA & dB & data & _ & _ & NIA & _ & _ & _ & STA & FOB).
    eapply found_le; [apply FOB|]. eapply store_add_finds; [exact NIA|exact STA|]. unfold e_id. cbn [e_attribs]. rewrite I0. exact EI. }
  destruct (same_made O d d' _ (found_again d d') HG _ _ _ NO _ _ _ MD) as (SC & _).
  econstructor; [exact G|exact G'|exact TY|exact PR| |rewrite CT; exact SC].
  destruct (IDOWN _ _ _ _ _ G TA RA) as (U0 & I0 & _). split; [|split; [exact U0|]].
  - destruct (tag_kept d2 d3 d' (e_type e) (fst x) [] None 0 F2 NI (fun _ i => match i with end) TX ST LE3 F') as (KA & _). eapply (attributes_same O d d' root e a (fst x) fs 0 e'); try eassumption. intros y Y. eapply VR; eassumption.
  - intros id EI. exists 0. split; [apply (full_key _ _ _ F' G')|]. eapply found_le; [exact LE3|]. eapply store_add_finds; [exact NI|exact ST|]. unfold e_id. cbn [e_attribs]. rewrite I0. exact EI.
Qed.

(* ---------------------------------------------------------------- the elements of the tree and their counterparts *)
Section Pairs.
Variables (O : oracle) (d d' : document) (same : elementdata -> elementdata -> Prop).
Lemma content_in l ns ks : nodes_of O d l ns ks -> forall p l' n, same_content same d d' p l l' n -> forall j, In j ks -> exists par j' m, same_tree same d d' (Some par) j j' m.
Proof.
  intros N. induction N as [|s l ns ks B N IH|s l ns ks B N IH|s l ns ks B N IH|c e a inside l ns ks1 ks G T N1 IH1 N2 IH2]; intros p l' n SC j J.
  - destruct J.
  - eapply IH; eassumption.
  - inversion SC; subst. eapply IH; eassumption.
  - inversion SC; subst. eapply IH; eassumption.
  - inversion SC as [| | |p0 c0 c' l0 l0' m n0 ST SC']; subst. destruct J as [<-|J]; [eauto|]. apply in_app_iff in J. destruct J as [J|J]; [|eapply IH2; eassumption].
    inversion ST as [par k k' x x' m0 GX GX' TX PX SX SCX]; subst. rewrite G in GX. injection GX as <-. eapply IH1; eassumption.
Qed.
Lemma tree_in root e inside ks k' n : get_elementdata d root = Some e -> nodes_of O d (RoundTree.kept (e_data e)) inside ks -> same_tree same d d' None root k' n ->
  forall j, In j (root :: ks) -> exists par j' m, same_tree same d d' par j j' m.
Proof.
  intros G NO ST j [<-|J]; [eauto|]. inversion ST as [par k k'' x x' m0 GX GX' TX PX SX SCX]; subst. rewrite G in GX. injection GX as <-.
  destruct (content_in _ _ _ NO _ _ _ SCX j J) as (par & j' & m & X). eauto.
Qed.
End Pairs.
Lemma space_plain l : find_attrib (filter plain_value l) AB_SPACE = find_attrib l AB_SPACE.
Proof. induction l as [|a l IH]; [reflexivity|]. destruct a; cbn; try exact IH; reflexivity. Qed.
Lemma layer_no_space t : group_contains EG_Layer t = true -> existsb (ab_eqb AB_SPACE) (p_optional_attribs (props t)) = false.
Proof. destruct t; vm_compute; congruence. Qed.
Lemma idref_plain l : attribs_idref (filter plain_value l) = attribs_idref l.
Proof. induction l as [|a l IH]; [reflexivity|]. destruct a; cbn; try exact IH; reflexivity. Qed.
Lemma idref_single l : unique_types l -> last (map Some (flat_map (fun a => match a with A_Idref s => [s] | _ => [] end) l)) None = attribs_idref l.
Proof.
  unfold unique_types. induction l as [|a l IH]; intros U; [reflexivity|]. inversion U as [|? ? NI U']; subst. destruct a; try exact (IH U').
  cbn [flat_map app map attribs_idref]. replace (flat_map (fun a => match a with A_Idref s => [s] | _ => [] end) l) with (@nil string); [reflexivity|].
  symmetry. clear IH U U'. induction l as [|b l IH]; [reflexivity|]. cbn [map In] in NI. destruct b; try (apply IH; intros Q; apply NI; right; exact Q). exfalso. apply NI. left. reflexivity.
Qed.

Scheme same_tree_mut := Induction for same_tree Sort Prop with same_content_mut := Induction for same_content Sort Prop.
Lemma same_tree_map (same same' : elementdata -> elementdata -> Prop) d d' :
  (forall par k k' n e e', same_tree same d d' par k k' n -> get_elementdata d k = Some e -> get_elementdata d' k' = Some e' -> same e e' -> same' e e') ->
  forall par k k' n, same_tree same d d' par k k' n -> same_tree same' d d' par k k' n.
Proof.
  intros H. apply (same_tree_mut same d d' (fun par k k' n _ => same_tree same' d d' par k k' n) (fun p l l' n _ => same_content same' d d' p l l' n)); [|constructor; assumption..].
  intros par k k' e e' n G G' T P SM SC IH. econstructor; [exact G|exact G'|exact T|exact P| |exact IH]. eapply H; [|exact G|exact G'|exact SM]. econstructor; eassumption.
Qed.

(* ---------------------------------------------------------------- the text of the tree *)
Section Kept.
Variables (O : oracle) (d d' : document) (root : nat) (e0 : elementdata) (inside : list xnode) (ks : list nat) (n0 : nat).
Hypotheses (R : reachable anything d) (R' : reachable anything d') (F' : full_ok d') (SL' : spans_linked d') (G0 : get_elementdata d root = Some e0) (NO : nodes_of O d (RoundTree.kept (e_data e0)) inside ks)
  (ST : same_tree (found_again d d') d d' None root 0 n0) (IDS : forall id, has_id d' id -> exists j x, In j (root :: ks) /\ get_elementdata d j = Some x /\ e_id x = Some id).
Definition pair (e e' : elementdata) : Prop := exists par k k' n, same_tree (found_again d d') d d' par k k' n /\ get_elementdata d k = Some e /\ get_elementdata d' k' = Some e'.
Lemma pair_type e e' : pair e e' -> e_type e' = e_type e /\ found_again d d' e e'.
Proof. intros (par & k & k' & n & S & G & G'). destruct (same_tree_key _ _ _ _ _ _ _ S) as (x & x' & GX & GX' & TX & _ & SX & _). rewrite G in GX. injection GX as <-. rewrite G' in GX'. injection GX' as <-. auto. Qed.
Lemma pair_space e e' : pair e e' -> existsb (ab_eqb AB_SPACE) (p_optional_attribs (props (e_type e))) = true -> space_of e' = space_of e.
Proof.
  intros PE SP. destruct (pair_type _ _ PE) as (_ & [(B & _)|(PL & _)] & _); [destruct B as (B & _); rewrite (layer_no_space _ B) in SP; discriminate|].
  unfold space_of, e_attrib. rewrite <- (space_plain (e_attribs e')), PL, space_plain. reflexivity.
Qed.
Lemma resolves_to x id j t : reachable anything x -> e_idref t = Some id -> get_element_key_by_id x id = Some j -> forall y, get_elementdata x j = Some y -> r_resolve x t = Ok (Some y).
Proof. intros RX E K y Y. rewrite (reachable_resolves x RX). unfold target. rewrite E, K. rewrite Y. reflexivity. Qed.
Lemma pair_target p k k' n e e' : same_tree (found_again d d') d d' (Some p) k k' n -> get_elementdata d k = Some e -> get_elementdata d' k' = Some e' -> e_type e = ET_WordReference ->
  exists t t', r_resolve d e = Ok (Some t) /\ r_resolve d' e' = Ok (Some t') /\ pair t t'.
Proof.
  intros S G G' TY. destruct (same_tree_key _ _ _ _ _ _ _ S) as (x & x' & GX & GX' & TX & PX & (SA & U & _) & _). rewrite G in GX. injection GX as <-. rewrite G' in GX'. injection GX' as <-.
  assert (PL : filter plain_value (e_attribs e') = filter plain_value (e_attribs e)). { destruct SA as [((B & _) & _)|(PL & _)]; [rewrite TY in B; discriminate|exact PL]. }
  destruct (proj1 SL' k' e' G' ltac:(congruence) ltac:(congruence)) as (t & s & (y & id & GY & _ & IR & KI) & GT & _). rewrite G' in GY. injection GY as <-.
  assert (ID : e_idref e = Some id). { unfold e_idref. rewrite <- idref_plain, <- idref_single by exact U. rewrite <- PL, idref_of_plain. exact IR. }
  assert (ID' : e_idref e' = Some id). { unfold e_idref in *. rewrite <- idref_plain, PL, idref_plain. exact ID. }
  destruct (IDS id) as (j & u & IJ & GJ & EJ); [unfold has_id; congruence|]. destruct (tree_in O d d' _ root e0 inside ks 0 n0 G0 NO ST j IJ) as (par & j' & m & SJ).
  destruct (same_tree_key _ _ _ _ _ _ _ SJ) as (u0 & u' & GU & GU' & _ & _ & (_ & _ & FI) & _). rewrite GJ in GU. injection GU as <-. destruct (FI id EJ) as (j2 & KU & KJ).
  pose proof (full_key _ _ _ F' GU') as KU'. rewrite KU in KU'. injection KU' as ->.
  exists u, u'. split; [apply (resolves_to d id j e R ID); [|exact GJ]; apply (get_by_id_element d id R) with (e := u); assumption|]. split; [apply (resolves_to d' id j' e' R' ID' KJ u' GU')|]. exists par, j, j', m. auto.
Qed.
Lemma pair_content e e' : pair e e' -> rel_content d d' pair (content e) (content e').
Proof.
  intros (par & k & k' & n & S & G & G'). destruct (same_tree_key _ _ _ _ _ _ _ S) as (x & x' & GX & GX' & _ & _ & _ & m & _ & SC). rewrite G in GX. injection GX as <-. rewrite G' in GX'. injection GX' as <-. clear S G G' n par.
  revert SC. generalize (content e) (content e') m. intros l l' m0 SC. induction SC as [|p s l l' n SC IH|p s l l' n SC IH|p c c' l l' m1 n SX SC IH]; [constructor|constructor; exact IH|constructor; exact IH|].
  destruct (same_tree_key _ _ _ _ _ _ _ SX) as (x & x' & GX & GX' & TX & _). econstructor; [exact GX|exact GX'|exists (Some p), c, c', m1; auto| |exact IH].
  intros TY. eapply pair_target; eassumption.
Qed.
Lemma pair_text f a b st rt a' b' e e' : pair e e' -> forall q, text_by_key f d' a' b' st rt e' q = text_by_key f d a b st rt e q.
Proof. intros PE q. apply (text_same d d' pair); [intros x x' X; apply (pair_type _ _ X)|exact pair_space|exact pair_content|exact PE]. Qed.
End Kept.
