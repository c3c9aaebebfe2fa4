(* C68: saving what was loaded writes the same document again. *)
From Coq Require Import String List Bool Arith NArith Lia Permutation.
From Verif Require Import Base BaseFacts Types TypesFacts SpecTable Attrib AttribFacts Element Store StoreFacts Metadata Document Select DocOps Xml Parser Serialiser History Spec
  FrameFacts InvFacts DocFacts Examples StoreThms InternFacts EncodeFacts PropsEncode LinkFacts TreeFacts ForestFacts SelSpec SelectFacts PropsLinks PropsQuery SerSpec PropsSer ParseSpec ParseFacts PropsParse PropsProv RoundFacts RoundProv RoundSpec RoundTree PropsRound PropsLoad RefFacts PropsTree PropsRefs
  SpanSpec SpanLinks PropsSpans ResaveSpec ResaveFacts.
Import ListNotations.
Open Scope string_scope.
Open Scope list_scope.

(* ---------------------------------------------------------------- the IDs of a loaded document *)
Lemma break_same fuel O d st ev d1 : elements_step fuel O d st ev = (d1, Ok PBreak) -> d1 = d.
Proof.
  intros H. destruct ev as [ns name attrs|ns name attrs|ns name|[t|]|[t|]|[t|]| |]; cbn [elements_step] in H; try discriminate; try (destruct ns; try discriminate); try (repeat (apply sbind_ok in H; destruct H as (? & ? & _ & H)); discriminate).
  destruct st as [|key [|top st]]; try congruence. apply sbind_ok in H. destruct H as (d2 & u & _ & H). destruct (get_elementdata d2 key); [|discriminate]. apply sbind_ok in H. destruct H as (d3 & et & _ & H).
  destruct (et_eqb _ et); [|discriminate]. apply sbind_ok in H. destruct H as (d4 & v & _ & H). discriminate.
Qed.
Lemma loop_ids fuel O x l : forall d st d', pinv d st (l ++ x) -> parse_elements_loop fuel O d st l = (d', Ok tt) -> forall id, In id (xml_ids x) -> ~ has_id d' id.
Proof.
  induction l as [|ev l IH]; intros d st d' PI H id I'; [injection H as <-; intros Q; apply (pi_ids _ _ _ PI id Q I')|]. cbn [app] in PI. apply loop_step in H. destruct H as (d1 & p & S & H).
  pose proof (elements_step_pinv _ _ _ _ _ _ _ _ PI S) as Q. destruct p as [st'|]; [exact (IH _ _ _ Q H id I')|]. subst d1. rewrite (break_same _ _ _ _ _ _ S). intros HI. apply (pi_ids _ _ _ PI id HI).
  assert (X : xml_ids (ev :: l ++ x) = xml_ids (ev :: l) ++ xml_ids x) by (change (ev :: l ++ x) with ((ev :: l) ++ x); apply xml_ids_app). rewrite X. apply in_app_iff. auto.
Qed.
Lemma id_of_plain l : attribs_id (filter plain_value l) = attribs_id l.
Proof. induction l as [|a l IH]; [reflexivity|]. destruct a; cbn; try exact IH; reflexivity. Qed.
Lemma idref_of_plain l : flat_map (fun a => match a with A_Idref s => [s] | _ => [] end) (filter plain_value l) = flat_map (fun a => match a with A_Idref s => [s] | _ => [] end) l.
Proof. induction l as [|a l IH]; [reflexivity|]. destruct a; cbn; try exact IH; rewrite IH; reflexivity. Qed.

(* ---------------------------------------------------------------- the span annotations of a loaded document *)
Section Spans.
Variables (O : oracle) (d d' : document) (root : nat) (e : elementdata) (inside : list xnode) (ks ks' : list nat) (e0 : elementdata).
Hypotheses (R : reachable anything d) (R' : reachable anything d') (BL : bare_layers_plain d) (CO : consistent d)
  (SL : spans_linked d) (SL' : spans_linked d')
  (NW : e_type e <> ET_WordReference) (G : get_elementdata d root = Some e) (NO : nodes_of O d (kept (e_data e)) inside ks)
  (RA : Forall2 (read_as d d') (root :: ks) (0 :: ks'))
  (ALL : forall j, get_elementdata d' j <> None -> In j (0 :: ks'))
  (IDS : forall id, has_id d' id -> exists j x, In j (root :: ks) /\ get_elementdata d j = Some x /\ e_id x = Some id).
Lemma id_read j j' x x' : read_as d d' j j' -> get_elementdata d j = Some x -> get_elementdata d' j' = Some x' -> e_id x' = e_id x.
Proof.
  intros (y & y' & G1 & G2 & _ & SA & _) GX GX'. rewrite GX in G1. injection G1 as <-. rewrite GX' in G2. injection G2 as <-. unfold e_id. rewrite <- (id_of_plain (e_attribs x)), <- (id_of_plain (e_attribs x')).
  destruct SA as [(BT & LR)|(PE & _)]; [|rewrite PE; reflexivity]. destruct (BL _ _ GX BT) as (PN & _). destruct LR as [E|(dk & dec & E & _)]; rewrite E, PN; reflexivity.
Qed.
Lemma below_parent l ns js : nodes_of O d l ns js -> forall P, under d P l -> forall j, In j js -> parent_of d j <> None.
Proof.
  intros N. induction N as [|s l ns js B N IH|s l ns js B N IH|s l ns js B N IH|c x a ins l ns js1 js GX T N1 IH1 N2 IH2]; intros P U j J.
  - destruct J.
  - apply (IH P U _ J).
  - apply (IH P); [|exact J]. intros z Z. apply U. right. exact Z.
  - apply (IH P); [|exact J]. intros z Z. apply U. right. exact Z.
  - destruct J as [<-|J].
    + specialize (U c (or_introl eq_refl) x GX). unfold parent_of. rewrite GX. unfold obind. rewrite U. discriminate.
    + apply in_app_iff in J. destruct J as [J|J]; [apply (IH1 c (under_data d CO c x GX) _ J)|]. apply (IH2 P); [|exact J]. intros z Z. apply U. right. exact Z.
Qed.
Lemma in_pair {A B} (P : A -> B -> Prop) l l' : Forall2 P l l' -> (forall x, In x l -> exists y, In y l' /\ P x y) /\ forall y, In y l' -> exists x, In x l /\ P x y.
Proof.
  intros F. induction F as [|x y l l' H F (IH1 & IH2)]; [split; intros ? []|]. split; intros z [<-|Z].
  - exists y. split; [left; reflexivity|exact H].
  - destruct (IH1 z Z) as (u & U & V). exists u. split; [right; exact U|exact V].
  - exists x. split; [left; reflexivity|exact H].
  - destruct (IH2 z Z) as (u & U & V). exists u. split; [right; exact U|exact V].
Qed.
Lemma spans_read k k' x x' : read_as d d' k k' -> get_elementdata d k = Some x -> get_elementdata d' k' = Some x' -> span_refs x = [] -> span_refs x' = [].
Proof.
  intros RK GK GK' S. destruct (proj2 SL' k' x' GK') as (ws' & _ & WS' & F'). destruct ws' as [|w' ws']; [inversion F'; reflexivity|exfalso].
  destruct (proj1 (WS' w') (or_introl eq_refl)) as ((y' & id & GW' & TW' & IR & KI) & _).
  destruct (in_pair _ _ _ RA) as (LR & RL). destruct (RL w' (ALL w' ltac:(congruence))) as (w & IW & (y & z' & GW & GZ & TY & SA & SR)). rewrite GW' in GZ. injection GZ as <-.
  (* the word reference in d *)
  assert (TW : e_type y = ET_WordReference) by congruence. assert (NB : ~ bare_layer_tag d y) by (intros (Q & _); rewrite TW in Q; discriminate).
  assert (IRD : idref y = Some id). { destruct SA as [(Q & _)|(PE & _)]; [contradiction|]. unfold idref in *. rewrite <- (idref_of_plain (e_attribs y)), <- PE, idref_of_plain. exact IR. }
  (* its target in d *)
  destruct (IDS id) as (j & u & IJ & GJ & EJ); [unfold has_id; congruence|]. destruct (LR j IJ) as (j' & IJ' & RJ). pose proof RJ as (u1 & u' & GU1 & GU' & _).
  pose proof (id_read j j' u u' RJ GJ GU') as EU. rewrite EJ in EU. pose proof (proj2 (proj2 (get_by_id_element d' id R')) j' u' GU' EU) as KJ. rewrite KI in KJ. injection KJ as <-. rewrite GK' in GU'. injection GU' as <-.
  pose proof (id_read k k' x x' RK GK GK') as EX. rewrite EU in EX. symmetry in EX. pose proof (proj2 (proj2 (get_by_id_element d id R)) k x GK EX) as KK.
  destruct (proj2 SL k x GK) as (ws & _ & WS & FF). rewrite S in FF. inversion FF; subst. apply (WS w). split; [exists y, id; auto|].
  destruct IW as [<-|IW]; [exfalso; congruence|]. apply (below_parent _ _ _ NO root (under_data d CO root e G) w IW).
Qed.
(* the other direction, for an element with a word reference in the tree *)
Lemma nodes_closed l ns js : nodes_of O d l ns js -> (forall c, In (DElement c) l -> In c js) /\ forall j x c, In j js -> get_elementdata d j = Some x -> In (DElement c) (kept (e_data x)) -> In c js.
Proof.
  intros N. induction N as [|s l ns js B N (IHa & IHb)|s l ns js B N (IHa & IHb)|s l ns js B N (IHa & IHb)|c x a ins l ns js1 js GX T N1 (IH1a & IH1b) N2 (IH2a & IH2b)].
  - split; [intros c []|intros j x c []].
  - split; assumption.
  - split; [|exact IHb]. intros c [E|I']; [discriminate|auto].
  - split; [|exact IHb]. intros c [E|I']; [discriminate|auto].
  - split.
    + intros c' [E|I']; [injection E as ->; left; reflexivity|]. right. apply in_app_iff. right. apply IH2a, I'.
    + intros j y c' [<-|I'] GY C; [rewrite GX in GY; injection GY as <-; right; apply in_app_iff; left; apply IH1a, C|]. right. apply in_app_iff in I'. apply in_app_iff. destruct I' as [I'|I']; [left; eapply IH1b; eassumption|right; eapply IH2b; eassumption].
Qed.
Lemma below_in x : ancestor d root x -> In x ks.
Proof.
  destruct (nodes_closed _ _ _ NO) as (C1 & C2).
  assert (CH : forall p q, parent_of d q = Some p -> exists pe, get_elementdata d p = Some pe /\ In (DElement q) (kept (e_data pe))).
  { intros p q Q. destruct (CO p) as (_ & C). destruct (C q) as ((_ & C3) & _). apply C3 in Q. unfold children_of in Q. destruct (get_elementdata d p) as [pe|] eqn:GP; [|destruct Q]. exists pe. split; [reflexivity|].
    unfold child_keys in Q. apply in_flat_map in Q. destruct Q as (z & Z & Q). apply filter_In. destruct z; try destruct Q. 2:{ contradiction. } subst. split; [exact Z|reflexivity]. }
  intros A. induction A as [x P|x b P A IH]; destruct (CH _ _ P) as (pe & GP & C).
  - rewrite G in GP. injection GP as <-. apply C1, C.
  - eapply C2; eassumption.
Qed.
Lemma spans_kept k k' x x' wr : read_as d d' k k' -> get_elementdata d k = Some x -> get_elementdata d' k' = Some x' -> refers d wr k -> ancestor d root wr ->
  (forall j j' y', In j ks -> read_as d d' j j' -> In j' ks' -> get_elementdata d' j' = Some y' -> e_parent y' <> None) -> span_refs x' <> [].
Proof.
  intros RK GK GK' (y & id & GY & TY & IR & KI) AN PAR. pose proof (below_in wr AN) as IW. inversion RA as [|? ? ? ? _ RA']; subst. destruct (proj1 (in_pair _ _ _ RA') wr IW) as (w' & IW' & RW). pose proof RW as (y0 & y' & GY0 & GY' & TY' & SA & _).
  rewrite GY in GY0. injection GY0 as <-. assert (NB : ~ bare_layer_tag d y) by (intros (Q & _); rewrite TY in Q; discriminate).
  assert (IRD : idref y' = Some id). { destruct SA as [(Q & _)|(PE & _)]; [contradiction|]. unfold idref in *. rewrite <- (idref_of_plain (e_attribs y')), PE, idref_of_plain. exact IR. }
  pose proof (PAR wr w' y' IW RW IW' GY') as PN. destruct (proj1 SL' w' y' GY' ltac:(congruence) PN) as (t & s & (z & id' & GZ & TZ & IZ & KZ) & _). rewrite GY' in GZ. injection GZ as <-. rewrite IRD in IZ. injection IZ as <-.
  destruct (IDS id) as (j & u & IJ & GJ & EJ); [unfold has_id; congruence|]. pose proof (proj2 (proj2 (get_by_id_element d id R)) j u GJ EJ) as KJ. rewrite KI in KJ. injection KJ as <-. rewrite GK in GJ. injection GJ as <-.
  pose proof (id_read k k' x x' RK GK GK') as EX. rewrite EJ in EX. pose proof (proj2 (proj2 (get_by_id_element d' id R')) k' x' GK' EX) as KK.
  destruct (proj2 SL' k' x' GK') as (ws & _ & WS & FF). intros Q. rewrite Q in FF. inversion FF; subst. apply (WS w'). split; [exists y', id; auto|]. unfold parent_of. rewrite GY'. exact PN.
Qed.
End Spans.

(* ---------------------------------------------------------------- what is known of a document that was saved and loaded *)
(* reading whole nodes leaves the open elements as they were *)
Lemma nodes_stay fuel O nodes ev : xml_events nodes ev -> forall st rest d d', st <> [] -> parse_elements_loop fuel O d st (ev ++ rest) = (d', Ok tt) ->
  exists d1, (forall x, parse_elements_loop fuel O d st (ev ++ x) = parse_elements_loop fuel O d1 st x) /\ parse_elements_loop fuel O d1 st rest = (d', Ok tt).
Proof.
  assert (STEP : forall ev l d st d1 st', elements_step fuel O d st ev = (d1, Ok (PContinue st')) -> parse_elements_loop fuel O d st (ev :: l) = parse_elements_loop fuel O d1 st' l).
  { intros ev' l d st d1 st' S. cbn [parse_elements_loop]. rewrite S. reflexivity. }
  intros X. induction X as [|name attrs inside l rest m X1 IH1 X2 IH2|name attrs rest m X IH|ns name attrs inside l rest m NF X1 IH1 X2 IH2|ns name attrs rest m NF X IH|s rest m X IH|s rest m X IH|s rest m X IH|rest m X IH];
    intros st r d d' NE H.
  - cbn [app] in *. eauto.
  - cbn [app] in *. rewrite <- app_assoc in *. cbn [app] in *. apply loop_step in H. destruct H as (d1 & p & S & H). destruct (start_opens _ _ _ _ _ _ _ _ S) as (key & ->).
    destruct (IH1 (key :: st) _ d1 d' (cons_ne _ _) H) as (d2 & E2 & H2). apply loop_step in H2. destruct H2 as (d3 & p & S3 & H3).
    destruct st as [|top st]; [congruence|]. pose proof (end_opens _ _ _ _ _ _ _ _ _ S3) as ->. destruct (IH2 (top :: st) r d3 d' NE H3) as (d4 & E4 & H4).
    exists d4. split; [|exact H4]. intros x. rewrite (STEP _ _ _ _ _ _ S), <- app_assoc, E2. cbn [app]. rewrite (STEP _ _ _ _ _ _ S3). apply E4.
  - cbn [app] in *. apply loop_step in H. destruct H as (d1 & p & S & H). pose proof (empty_opens _ _ _ _ _ _ _ _ S) as ->. destruct (IH st r d1 d' NE H) as (d2 & E2 & H2). exists d2. split; [|exact H2]. intros x. rewrite (STEP _ _ _ _ _ _ S). apply E2.
  - cbn [app] in *. rewrite <- app_assoc in *. cbn [app] in *. apply loop_step in H. destruct H as (d1 & p & S & H). assert (E : (d1, Ok p) = (d, Ok (PContinue st))) by (rewrite <- S; destruct ns; [contradiction|reflexivity..]). injection E as -> ->.
    destruct (IH1 st _ d d' NE H) as (d2 & E2 & H2). apply loop_step in H2. destruct H2 as (d3 & p & S3 & H3).
    assert (E : (d3, Ok p) = (d2, Ok (PContinue st))) by (rewrite <- S3; destruct ns; [contradiction|reflexivity..]). injection E as -> ->. destruct (IH2 st r d2 d' NE H3) as (d4 & E4 & H4).
    exists d4. split; [|exact H4]. intros x. rewrite (STEP _ _ _ _ _ _ S), <- app_assoc, E2. cbn [app]. rewrite (STEP _ _ _ _ _ _ S3). apply E4.
  - cbn [app] in *. apply loop_step in H. destruct H as (d1 & p & S & H). assert (E : (d1, Ok p) = (d, Ok (PContinue st))) by (rewrite <- S; destruct ns; [contradiction|reflexivity..]). injection E as -> ->.
    destruct (IH st r d d' NE H) as (d2 & E2 & H2). exists d2. split; [|exact H2]. intros x. rewrite (STEP _ _ _ _ _ _ S). apply E2.
  - cbn [app] in *. apply loop_step in H. destruct H as (d1 & p & S & H). assert (E : p = PContinue st) by (cbn in S; congruence). subst p. destruct (IH st r d1 d' NE H) as (d2 & E2 & H2). exists d2. split; [|exact H2]. intros x. rewrite (STEP _ _ _ _ _ _ S). apply E2.
  - cbn [app] in *. apply loop_step in H. destruct H as (d1 & p & S & H). assert (E : p = PContinue st) by (cbn in S; congruence). subst p. destruct (IH st r d1 d' NE H) as (d2 & E2 & H2). exists d2. split; [|exact H2]. intros x. rewrite (STEP _ _ _ _ _ _ S). apply E2.
  - cbn [app] in *. apply loop_step in H. destruct H as (d1 & p & S & H). assert (E : p = PContinue st) by (cbn in S; congruence). subst p. destruct (IH st r d1 d' NE H) as (d2 & E2 & H2). exists d2. split; [|exact H2]. intros x. rewrite (STEP _ _ _ _ _ _ S). apply E2.
  - cbn [app] in *. apply loop_step in H. destruct H as (d1 & p & S & H). assert (E : p = PContinue st) by (cbn in S; congruence). subst p. destruct (IH st r d1 d' NE H) as (d2 & E2 & H2). exists d2. split; [|exact H2]. intros x. rewrite (STEP _ _ _ _ _ _ S). apply E2.
Qed.
Lemma fake_ids id : xml_ids [EvStart NsFolia "x" [xa "xml:id" id]] = [id].
Proof. reflexivity. Qed.
Lemma concat_ids d ks ids id : Forall2 (id_list d) ks ids -> In id (concat ids) -> exists j x, In j ks /\ get_elementdata d j = Some x /\ e_id x = Some id.
Proof.
  intros F. induction F as [|k i ks ids (x & G & E) F IH]; [intros []|]. cbn [concat]. intros Q. apply in_app_iff in Q. destruct Q as [Q|Q].
  - destruct E as [E|E]; subst i; [|destruct Q]. destruct (e_id x) as [y|] eqn:EX; [|destruct Q]. destruct Q as [<-|[]]. exists k, x. split; [left; reflexivity|auto].
  - destruct (IH Q) as (j & y & J & Z). exists j, y. split; [right; exact J|exact Z].
Qed.
Lemma NoDup_app_single {A} (l : list A) x : NoDup l -> ~ In x l -> NoDup (l ++ [x]).
Proof.
  induction l as [|y l IH]; intros N X; cbn [app]; [constructor; [intros []|constructor]|]. inversion N; subst. constructor.
  - intros Q. apply in_app_iff in Q. destruct Q as [Q|[<-|[]]]; [contradiction|]. apply X. left. reflexivity.
  - apply IH; [assumption|]. intros Q. apply X. right. exact Q.
Qed.
Lemma loaded_more fuel fuel' O p d root e w indent d' : tidy d -> get_elementdata d root = Some e -> (e_parent e <> None \/ root = 0) -> writable_doc d -> props_ok normal p ->
  doc_xml fuel O d root = Ok w -> parse_document fuel' O p (reread indent w) = Ok d' ->
  exists inside ks, nodes_of O d (kept (e_data e)) inside ks /\ NoDup (root :: ks) /\ (e_type e = ET_Text \/ e_type e = ET_Speech) /\ spans_linked d' /\
    forall id, has_id d' id -> exists j x, In j (root :: ks) /\ get_elementdata d j = Some x /\ e_id x = Some id.
Proof.
  intros T G P WD GP W L.
  assert (X : exists m body, w_metadata fuel d = Ok m /\ xml_of O d true root body /\ exists d1 d2 r2, loading indent fuel' O p (doc_id d) (m ++ body ++ [wnl; WEnd "FoLiA"]) d' d1 d2 r2).
  { destruct (C52_xml_is_tree_partial O d root e T G P) as (l & X & FX & _). unfold doc_xml in W. apply rbind_ok in W. destruct W as (m & M & W). apply rbind_ok in W. destruct W as (b & B & W). injection W as <-.
    unfold element_xml in FX. destruct (FX fuel) as [Q|Q]; rewrite B in Q; [discriminate|]. injection Q as ->. exists m, l. split; [exact M|]. split; [exact X|]. eapply load_parts, L. }
  destruct X as (m & body & M & X & d1 & d2 & r2 & LD).
  destruct (saved_body _ _ _ _ _ _ _ _ _ _ _ _ _ _ T G WD M X LD) as (a & inside & ev & ks & after & x & d3 & d4 & k & [TA XE NO NDK FU NDI PA BT ST AP PE]).
  exists inside, ks. split; [exact NO|]. split; [exact NDK|]. split; [exact BT|].
  destruct (body_stored _ _ _ _ _ _ _ _ _ _ GP FU NDI PA ST AP) as (-> & L2 & F2 & F4 & FO & EL & S4 & L4 & PI & TX & NI & LE34).
  pose proof PE as PEL. unfold parse_elements in PEL. destruct (st_items (doc_elements d4)) as [|o0 l0]; [discriminate|]. clear o0 l0. split.
  - apply ties_linked.
    pose proof (tied_store d2 [0] [] [] (mkElem (e_type e) (fst x) [] None None) None eq_refl eq_refl (empty_ties d2 [0] L2)) as T3. rewrite ST in T3. cbn [fst] in T3.
    assert (T4 : tied d4 [0] [] []). { pose proof (ext_same _ _ EL) as E. apply (tied_ext d3 d4 [0] [0] [] [] []); [exact E|intros j q; apply vpar_ext, E|intros v V; exact V| |exact T3]. intros v e' _ _ Q. left. unfold parent_of, get_elementdata in *. rewrite EL in Q. exact Q. }
    destruct (nodes_ties fuel' O inside ev XE [0] (EvEnd NsFolia (et_as_str (e_type e)) :: after) d4 d' (cons_ne _ _) PI (ex_intro _ [] T4) PEL) as (d5 & PI5 & (done & T5) & PE5). cbn in PE5. injection PE5 as ->.
    exists done. apply (tied_ext d' d' [0] [] [] [] done); [apply ext_refl|intros j q Q; exact Q|intros v V; exact V|auto|exact T5].
  - intros id HI.
    assert (IN : In id (tag_ids (read_attrs [] a) ++ xml_ids ev)).
    { destruct (in_dec String.string_dec id (tag_ids (read_attrs [] a) ++ xml_ids ev)) as [I'|N]; [exact I'|exfalso].
      assert (ND2 : NoDup (tag_ids (read_attrs [] a) ++ xml_ids (ev ++ [EvStart NsFolia "x" [xa "xml:id" id]]))).
      { rewrite xml_ids_app, fake_ids, app_assoc. apply NoDup_app_single; [|exact N]. rewrite xml_ids_app, app_assoc in NDI. apply NoDup_app_inv in NDI. apply NDI. }
      destruct (body_stored _ _ _ _ _ _ _ _ _ _ GP FU ND2 PA ST AP) as (_ & _ & _ & _ & _ & _ & _ & _ & PI2 & _).
      destruct (nodes_stay fuel' O inside ev XE [0] (EvEnd NsFolia (et_as_str (e_type e)) :: after) d4 d' (cons_ne _ _) PEL) as (d5 & PE5 & PE6). cbn in PE6. injection PE6 as ->.
      specialize (PE5 []). rewrite app_nil_r in PE5. cbn [parse_elements_loop] in PE5.
      apply (loop_ids fuel' O _ ev d4 [0] d' PI2 PE5 id); [rewrite fake_ids; left; reflexivity|exact HI]. }
    apply in_app_iff in IN. destruct IN as [IN|IN].
    + destruct (tag_id _ _ _ _ TA) as [TI|TI]; rewrite TI in IN; [|destruct IN]. destruct (e_id e) as [y|] eqn:EY; [|destruct IN]. destruct IN as [<-|[]]. exists root, e. split; [left; reflexivity|auto].
    + destruct (node_ids _ _ _ _ _ NO _ XE) as (ids & EI & FI). rewrite EI in IN. destruct (concat_ids _ _ _ _ FI IN) as (j & y & J & Z). exists j, y. split; [right; exact J|exact Z].
Qed.

Lemma pair_len {A B} (P : A -> B -> Prop) l l' : Forall2 P l l' -> length l = length l'.
Proof. intros F. induction F as [|x y l l' _ F IH]; [reflexivity|]. cbn [length]. rewrite IH. reflexivity. Qed.
Lemma same_tree_key same d d' par k k' n : same_tree same d d' par k k' n -> exists e e', get_elementdata d k = Some e /\ get_elementdata d' k' = Some e' /\ e_type e' = e_type e /\ e_parent e' = par /\ same e e' /\
  exists m, n = S m /\ same_content same d d' k' (content e) (content e') m.
Proof. intros H. inversion H; subst. eauto 12. Qed.
(* the XML of the body, from the tree loaded *)
Lemma body_again fuel fuel' O p d root e w indent d' : settled d -> get_elementdata d root = Some e -> (e_parent e <> None \/ root = 0) -> writable_doc d -> values_in_range O d -> plain_props d p ->
  provenance_complete d -> features_home d -> features_complete d -> bare_layers_plain d -> spanned_full d root -> end_unspanned d root ->
  doc_xml fuel O d root = Ok w -> NoDup (xml_ids (reread indent w)) -> parse_document fuel' O p (reread indent w) = Ok d' -> room d' ->
  exists l, xml_of O d true root l /\ xml_of O d' true 0 l.
Proof.
  intros S G P WD VR PP PC FH FC BL SPF EU W NDX L RM. pose proof (settled_tidy _ S) as T.
  assert (T' : tidy d') by (eapply tidy_load; [apply PP|exact NDX|exact L]).
  destruct (C52_xml_is_tree_partial O d root e T G P) as (l & X & _). exists l. split; [exact X|].
  destruct (loaded_frame fuel fuel' O p d root e w indent d' T G P WD VR PP PC FH W L) as (d2 & AG & FR & _ & _ & _ & n & ST & LN). pose proof (agree_frame _ _ _ AG FR) as AD.
  destruct (loaded_more fuel fuel' O p d root e w indent d' T G P WD (proj1 PP) W L) as (inside & ks & NO & NDK & BT & SL' & IDS).
  assert (F : full_ok d) by apply reachable_full, tidy_reachable, T. assert (F' : full_ok d') by apply reachable_full, tidy_reachable, T'.
  destruct (same_tree_key _ _ _ _ _ _ _ ST) as (e1 & e' & G1 & G' & TY & PA & SB & m & -> & SC). rewrite G in G1. injection G1 as <-.
  destruct (nodes_across O d d' F F' AD RM FC BL _ _ _ NO _ _ _ SC) as (ks' & NO' & RA & LK).
  assert (RA0 : Forall2 (read_as d d') (root :: ks) (0 :: ks')) by (constructor; [exists e, e'; auto|exact RA]).
  assert (A' : acyclic d') by (intros k; apply C21_forest_partial, T'). pose proof (C18_links_agree_partial d' T') as C'.
  pose proof (nodes_nodup O d' 0 e' inside ks' C' A' G' NO') as ND'.
  assert (ALL : forall j, get_elementdata d' j <> None -> In j (0 :: ks')).
  { assert (IN : incl (seq 0 (Datatypes.S m)) (0 :: ks')).
    { apply NoDup_length_incl; [exact ND'| |].
      - rewrite seq_length. pose proof (pair_len _ _ _ RA0) as PL. cbn [length] in *. lia.
      - intros j J. apply in_seq. destruct (proj2 (in_pair _ _ _ RA0) j J) as (i & _ & (x & x' & _ & GX & _)). pose proof (get_lt _ _ _ GX). lia. }
    intros j J. apply IN. apply in_seq. destruct (get_elementdata d' j) as [x|] eqn:GX; [|congruence]. pose proof (get_lt _ _ _ GX). lia. }
  pose proof (normal_any _ (tidy_reachable _ T)) as R. pose proof (normal_any _ (tidy_reachable _ T')) as R'. pose proof (C18_links_agree_partial d T) as CO.
  apply (xml_across O d d' F F' AD RM FC BL) with (k := root) (par := None) (n := Datatypes.S m); [| |exact X|exact ST|intros _; exact EU].
  - intros k k' x x' RK GK GK' SX. destruct (SPF k x GK SX) as [Q|(wr & RF & AN)]; [left; exact Q|right].
    apply (spans_kept O d d' root e inside ks ks' R R' BL CO SL' G NO RA0 IDS k k' x x' wr); try assumption.
    intros j j' y' _ _ J' GY'. pose proof (below_parent O d' C' _ _ _ NO' 0 (under_data d' C' 0 e' G') j' J') as Q. unfold parent_of in Q. rewrite GY' in Q. exact Q.
  - apply (spans_read O d d' root e inside ks ks'); try assumption.
    + apply C67_spans_linked_partial, S.
    + destruct BT as [Q|Q]; rewrite Q; discriminate.
Qed.

(* ================================================================ C68 *)
(* The body of a document that was saved and loaded is written exactly as it was. *)
Theorem C68_body_again_partial : forall fuel fuel' O p d root e w indent d', settled d -> get_elementdata d root = Some e -> (e_parent e <> None \/ root = 0) ->
  writable_doc d -> values_in_range O d -> plain_props d p -> provenance_complete d -> features_home d -> features_complete d -> bare_layers_plain d -> spanned_full d root -> end_unspanned d root ->
  doc_xml fuel O d root = Ok w -> NoDup (xml_ids (reread indent w)) -> parse_document fuel' O p (reread indent w) = Ok d' -> room d' ->
  exists b n, (forall m, element_xml m O d root = OutOfFuel \/ element_xml m O d root = Ok b) /\ (forall m, element_xml m O d' 0 = OutOfFuel \/ element_xml m O d' 0 = Ok b) /\
    forall m, n <= m -> element_xml m O d root = Ok b /\ element_xml m O d' 0 = Ok b.
Proof.
  intros fuel fuel' O p d root e w indent d' S G P WD VR PP PC FH FC BL SPF EU W NDX L RM.
  destruct (body_again fuel fuel' O p d root e w indent d' S G P WD VR PP PC FH FC BL SPF EU W NDX L RM) as (l & X & X').
  pose proof (settled_tidy _ S) as T. assert (T' : tidy d') by (eapply tidy_load; [apply PP|exact NDX|exact L]).
  assert (G' : exists e', get_elementdata d' 0 = Some e') by (inversion X'; subst; eauto). destruct G' as (e' & G').
  destruct (C52_xml_is_tree_partial O d root e T G P) as (l1 & X1 & A1 & n1 & B1). destruct (C52_xml_is_tree_partial O d' 0 e' T' G' (or_intror eq_refl)) as (l2 & X2 & A2 & n2 & B2).
  rewrite (C52_xml_unique O d true root l1 l (tidy_reachable _ T) X1 X) in *. rewrite (C52_xml_unique O d' true 0 l2 l (tidy_reachable _ T') X2 X') in *.
  exists l, (n1 + n2). split; [exact A1|]. split; [exact A2|]. intros m M. split; [apply B1; lia|apply B2; lia].
Qed.
Print Assumptions C68_body_again_partial.

(* ---------------------------------------------------------------- the metadata *)
Lemma each_same (f g : nat -> res (list wevent)) l l' : Forall2 (fun a b => f a = g b) l l' -> w_each f l = w_each g l'.
Proof. intros F. induction F as [|a b l l' E F IH]; [reflexivity|]. cbn [w_each]. rewrite E, IH. reflexivity. Qed.
Lemma same_attrs p q : same_values p q -> proc_attrs q = proc_attrs p.
Proof. intros []. unfold proc_attrs. congruence. Qed.
Lemma processor_same d d' n : forall par k k', same_processor d d' par k k' -> w_processor n d k = w_processor n d' k'.
Proof.
  induction n as [|n IH]; intros par k k' H; [reflexivity|]. inversion H as [par0 k0 k0' p q G G' SV PA IX F]; subst. cbn [w_processor]. rewrite G, G', (same_attrs _ _ SV).
  assert (E : w_each (w_processor n d) (pr_processors p) = w_each (w_processor n d') (pr_processors q)).
  { apply each_same. eapply Forall2_imp; [|exact F]. intros a b. apply IH. }
  destruct F as [|a b l l' AB F]; [reflexivity|]. rewrite E. reflexivity.
Qed.
Lemma each_mono (f g : nat -> res (list wevent)) l : (forall k x, f k = Ok x -> g k = Ok x) -> forall x, w_each f l = Ok x -> w_each g l = Ok x.
Proof.
  intros FG. induction l as [|k l IH]; intros x H; [exact H|]. cbn [w_each] in *. apply rbind_ok in H. destruct H as (y & Y & H). apply rbind_ok in H. destruct H as (z & Z & H). rewrite (FG _ _ Y), (IH _ Z). exact H.
Qed.
Lemma processor_mono d n : forall m k x, n <= m -> w_processor n d k = Ok x -> w_processor m d k = Ok x.
Proof.
  induction n as [|n IH]; intros m k x L H; [discriminate|]. destruct m as [|m]; [lia|]. cbn [w_processor] in *. destruct (get_processor d k) as [p|]; [|exact H].
  destruct (pr_processors p) as [|a l]; [exact H|]. apply rbind_ok in H. destruct H as (y & Y & H). rewrite (each_mono _ (w_processor m d) _ (fun k x => IH m k x ltac:(lia)) _ Y). exact H.
Qed.
Lemma processor_cases d n : forall k, w_processor n d k = OutOfFuel \/ exists x, w_processor n d k = Ok x.
Proof.
  induction n as [|n IH]; intros k; [left; reflexivity|]. cbn [w_processor]. destruct (get_processor d k) as [p|]; [|eauto]. destruct (pr_processors p) as [|a l]; [eauto|].
  assert (E : w_each (w_processor n d) (a :: l) = OutOfFuel \/ exists x, w_each (w_processor n d) (a :: l) = Ok x).
  { generalize (a :: l). clear a l. intros l. induction l as [|a l IHl]; [right; eexists; reflexivity|]. cbn [w_each]. destruct (IH a) as [->|(x & ->)]; [left; reflexivity|]. cbn [rbind]. destruct IHl as [->|(y & ->)]; [left; reflexivity|right; eexists; reflexivity]. }
  destruct E as [->|(x & ->)]; [left; reflexivity|right; eexists; reflexivity].
Qed.
Lemma provenance_mono d n m x : n <= m -> w_provenance n d = Ok x -> w_provenance m d = Ok x.
Proof. unfold w_provenance. intros L H. apply rbind_ok in H. destruct H as (y & Y & H). rewrite (each_mono _ (w_processor m d) _ (fun k x => processor_mono d n m k x L) _ Y). exact H. Qed.
Lemma provenance_stable d n x : w_provenance n d = Ok x -> forall m, w_provenance m d = OutOfFuel \/ w_provenance m d = Ok x.
Proof.
  intros H m. assert (C : w_provenance m d = OutOfFuel \/ exists y, w_provenance m d = Ok y).
  { unfold w_provenance. assert (E : forall l, w_each (w_processor m d) l = OutOfFuel \/ exists x, w_each (w_processor m d) l = Ok x).
    { intros l. induction l as [|a l IHl]; [right; eexists; reflexivity|]. cbn [w_each]. destruct (processor_cases d m a) as [->|(y & ->)]; [left; reflexivity|]. cbn [rbind]. destruct IHl as [->|(z & ->)]; [left; reflexivity|right; eexists; reflexivity]. }
    destruct (E (doc_chain d)) as [->|(y & ->)]; [left; reflexivity|right; eexists; reflexivity]. }
  destruct C as [C|(y & C)]; [left; exact C|right]. rewrite C. pose proof (provenance_mono d n (n + m) x ltac:(lia) H) as A. pose proof (provenance_mono d m (n + m) y ltac:(lia) C) as B. congruence.
Qed.
Lemma annotators_same d d' l l' : Forall2 (fun a b => exists par, same_processor d d' par a b) l l' -> w_annotators d l = w_annotators d' l'.
Proof.
  intros F. induction F as [|a b l l' (par & SP) F IH]; [reflexivity|]. inversion SP as [par0 k k' p q G G' SV PA IX FF]; subst. cbn [w_annotators]. rewrite G, G', IH, (sv_id _ _ SV). reflexivity.
Qed.
Definition decl_same (d d' : document) (x y : declaration) : Prop :=
  d_type y = d_type x /\ d_set y = d_set x /\ d_alias y = d_alias x /\ d_format y = d_format x /\ Forall2 (fun a b => exists par, same_processor d d' par a b) (d_processors x) (d_processors y).
Lemma declaration_same d d' x y : decl_same d d' x y -> w_declaration d x = w_declaration d' y.
Proof.
  intros (T & S & A & F & P). unfold w_declaration. rewrite T, S, A, F. pose proof (annotators_same _ _ _ _ P) as E. destruct P; [reflexivity|]. rewrite E. reflexivity.
Qed.
Lemma declarations_same d d' l : forall l',
  (forall k x, nth_error l k = Some (Some x) -> exists y, nth_error l' k = Some (Some y) /\ decl_same d d' x y) ->
  (forall k y, nth_error l' k = Some (Some y) -> exists x, nth_error l k = Some (Some x)) -> w_declaration_list d l = w_declaration_list d' l'.
Proof.
  induction l as [|o l IH]; intros l' A B.
  - cbn [w_declaration_list]. symmetry. induction l' as [|[y|] l' IH']; [reflexivity| |].
    + destruct (B 0 y eq_refl) as (x & X). discriminate.
    + cbn [w_declaration_list]. apply IH'; [intros [|k] x X; discriminate|]. intros k y Y. destruct (B (S k) y Y) as (x & X). discriminate.
  - destruct l' as [|o' l'].
    + cbn [w_declaration_list]. destruct o as [x|]; [destruct (A 0 x eq_refl) as (y & Y & _); discriminate|]. apply (IH []); [intros k x X; destruct (A (S k) x X) as (y & Y & _); destruct k; discriminate|intros [|k] y Y; discriminate].
    + assert (E : w_declaration_list d l = w_declaration_list d' l') by (apply IH; [intros k x X; apply (A (S k) x X)|intros k y Y; apply (B (S k) y Y)]).
      destruct o as [x|], o' as [y|]; cbn [w_declaration_list].
      * destruct (A 0 x eq_refl) as (z & Z & DS). injection Z as <-. rewrite (declaration_same _ _ _ _ DS), E. reflexivity.
      * destruct (A 0 x eq_refl) as (z & Z & _). discriminate.
      * destruct (B 0 y eq_refl) as (z & Z). discriminate.
      * exact E.
Qed.
Lemma items_get {T} (s : store T) k x : st_get s k = Some x <-> nth_error (st_items s) k = Some (Some x).
Proof. unfold st_get. destruct (nth_error (st_items s) k) as [[y|]|]; cbn; split; intros Q; congruence. Qed.
Lemma smap_get_in {V} (m : smap V) k v : NoDup (map fst m) -> (smap_get m k = Some v <-> In (k, v) m).
Proof.
  induction m as [|[k0 v0] m IH]; intros ND; [split; [discriminate|intros []]|]. inversion_clear ND as [|? ? NI ND']. cbn [smap_get In]. destruct (String.eqb_spec k k0) as [->|N].
  - split; [intros E; left; congruence|]. intros [E|I']; [congruence|]. exfalso. apply NI. apply (in_map fst) in I'. exact I'.
  - rewrite (IH ND'). split; [auto|]. intros [E|I']; [congruence|exact I'].
Qed.
Lemma smap_permutation {V} (m m' : smap V) : NoDup (map fst m) -> NoDup (map fst m') -> (forall k, smap_get m' k = smap_get m k) -> Permutation m m'.
Proof.
  intros N N' E. apply NoDup_Permutation; [eapply NoDup_map_inv, N|eapply NoDup_map_inv, N'|]. intros [k v]. rewrite <- (smap_get_in m k v N), <- (smap_get_in m' k v N'), E. reflexivity.
Qed.

(* The metadata may be given in any order, no key twice (it is a hash map). *)
Definition metadata_simple (d : document) : Prop :=
  NoDup (map fst (m_data (doc_metadata d))) /\ (forall k, smap_get (m_data (doc_metadata d)) k <> Some "") /\ forall id x, In (id, x) (doc_submetadata d) -> m_data x = [].
Lemma no_submetadata l : (forall (id : string) x, In (id, x) l -> m_data x = []) -> flat_map (fun p : string * metadata => flat_map w_meta (m_data (snd p))) l = [].
Proof. induction l as [|[id x] l IH]; intros H; [reflexivity|]. cbn [flat_map snd]. rewrite (H id x (or_introl eq_refl)). cbn [flat_map app]. apply IH. intros id' x' I'. apply (H id' x'). right. exact I'. Qed.
(* The whole file of a document that was saved and loaded is what it was, up to the order of the metadata.
   Partial: what the hypotheses exclude is refuted below, or for C54, C55 and C56. *)
Theorem C68_file_again_partial : forall fuel fuel' O p d root e w indent d', settled d -> get_elementdata d root = Some e -> (e_parent e <> None \/ root = 0) ->
  writable_doc d -> values_in_range O d -> plain_props d p -> provenance_complete d -> metadata_simple d -> features_home d -> features_complete d -> bare_layers_plain d -> spanned_full d root -> end_unspanned d root ->
  doc_xml fuel O d root = Ok w -> NoDup (xml_ids (reread indent w)) -> parse_document fuel' O p (reread indent w) = Ok d' -> room d' ->
  exists w' n, same_file w w' /\ (forall m, doc_xml m O d' 0 = OutOfFuel \/ doc_xml m O d' 0 = Ok w') /\ forall m, n <= m -> doc_xml m O d' 0 = Ok w'.
Proof.
  intros fuel fuel' O p d root e w indent d' S G P WD VR PP PC (MD & NE & SUB) FH FC BL SPF EU W NDX L RM. pose proof (settled_tidy _ S) as T.
  destruct (C68_body_again_partial fuel fuel' O p d root e w indent d' S G P WD VR PP PC FH FC BL SPF EU W NDX L RM) as (b & n & B1 & B2 & B3).
  destruct (loaded_frame fuel fuel' O p d root e w indent d' T G P WD VR PP PC FH W L) as (d2 & AG & FR & LE & DE & CH & _).
  pose proof W as W0. unfold doc_xml in W0. apply rbind_ok in W0. destruct W0 as (mt & M & W0). apply rbind_ok in W0. destruct W0 as (b0 & B & W0). injection W0 as W0.
  assert (b0 = b). { unfold element_xml in B1. destruct (B1 fuel) as [Q|Q]; rewrite B in Q; congruence. } subst b0.
  rewrite <- W0 in L. destruct (load_parts _ _ _ _ _ _ _ L) as (d1 & d2' & r2 & LD). destruct (loaded_metadata _ _ _ _ _ _ _ _ _ _ LD) as (EM & EI & _ & ES).
  pose proof (ld_root _ _ _ _ _ _ _ _ _ _ LD) as E1.
  assert (DM : doc_metadata d1 = meta_default) by (rewrite E1; reflexivity).
  assert (NE' : forall k v, In (k, v) (m_data (doc_metadata d)) -> v <> "") by (intros k v I' ->; apply (NE k); apply smap_get_in; [exact MD|exact I']).
  destruct (metadata_read indent fuel d mt d1 ms_init _ d2' r2 M eq_refl DM MD NE' SUB (ld_read _ _ _ _ _ _ _ _ _ _ LD)) as ((MT & MS & MG) & ID & _ & ND2 & SUB2 & _).
  assert (DI : doc_id d' = doc_id d) by (rewrite EI, ID, E1; reflexivity). assert (DS : doc_submetadata d' = []) by (rewrite ES, SUB2, E1; reflexivity).
  rewrite <- EM in MT, MS, MG, ND2. clear EM EI ES DM E1 ID SUB2 LD d1 d2' r2.
  assert (SP : forall par x y, same_processor d d2 par x y -> same_processor d d' par x y) by (apply same_kept, (fr_procs _ _ FR)).
  assert (PS : forall m, w_provenance m d = w_provenance m d').
  { intros m. unfold w_provenance. rewrite (each_same (w_processor m d) (w_processor m d') (doc_chain d) (doc_chain d')); [reflexivity|]. eapply Forall2_imp; [|exact CH]. intros x y Q. eapply processor_same, SP, Q. }
  assert (DEC : w_declarations d = w_declarations d').
  { unfold w_declarations. rewrite (declarations_same d d' (st_items (doc_decls d)) (st_items (doc_decls d'))); [reflexivity| |].
    - intros k x X. apply items_get in X. destruct (DE k x X) as (y & GY & AY & FY & PY). destruct (fr_some _ _ FR k y GY) as (z & GZ & TZ & SZ & PZ). exists z. split; [apply items_get, GZ|].
      destruct (ag_some _ _ AG k x X) as (y' & GY' & TY & SY & _). assert (y' = y) by congruence. subst y'.
      destruct LE as [_ (KE & _ & _) _]. destruct (KE k y GY) as (z' & GZ' & [KK KT KS KA KF _ _ _ _ _ _ _]). assert (EZ : z' = z) by (unfold get_declaration in GZ; congruence). subst z'. repeat split; try congruence.
      rewrite PZ. eapply Forall2_imp; [|exact PY]. intros u v (par & Q). exists par. apply SP, Q.
    - intros k y Y. apply items_get in Y. destruct (get_declaration d k) as [x|] eqn:GX; [exists x; apply items_get, GX|]. pose proof (fr_none _ _ FR k (ag_none _ _ AG k GX)) as Q. unfold get_declaration in Q. congruence. }
  unfold w_metadata in M. apply rbind_ok in M. destruct M as (dec & MD1 & M). apply rbind_ok in M. destruct M as (prov & MP & M). injection M as M. rewrite (no_submetadata _ SUB) in M.
  set (hd := WStart "FoLiA" [("xmlns", NSFOLIA); ("xmlns:xlink", NSXLINK); ("xml:id", doc_id d); ("version", FOLIAVERSION); ("generator", GENERATOR)] :: wnl ::
    WStart "metadata" (oattr "type" (m_type (doc_metadata d)) ++ oattr "src" (m_src (doc_metadata d))) :: wnl :: dec ++ prov).
  set (tl := WEnd "metadata" :: wnl :: b ++ [wnl; WEnd "FoLiA"]).
  assert (RUN : forall m, w_provenance m d' = Ok prov -> element_xml m O d' 0 = Ok b -> doc_xml m O d' 0 = Ok (hd ++ meta_tags (m_data (doc_metadata d')) ++ tl)).
  { intros m Q1 Q2. unfold doc_xml, w_metadata. rewrite <- DEC, MD1. cbn [rbind]. rewrite Q1. cbn [rbind]. unfold element_xml in Q2. rewrite Q2. cbn [rbind]. rewrite DS, DI, MT, MS. f_equal. unfold hd, tl. cbn [app flat_map]. rewrite <- !app_assoc. reflexivity. }
  exists (hd ++ meta_tags (m_data (doc_metadata d')) ++ tl), (n + fuel). split; [|split].
  - exists hd, (m_data (doc_metadata d)), (m_data (doc_metadata d')), tl. split; [|split; [reflexivity|apply smap_permutation; assumption]]. rewrite <- W0, <- M. unfold hd, tl. cbn [app]. rewrite <- !app_assoc. reflexivity.
  - intros m. destruct (provenance_stable d fuel prov MP m) as [Q|Q].
    + left. unfold doc_xml, w_metadata. rewrite <- DEC, MD1. cbn [rbind]. rewrite <- PS, Q. reflexivity.
    + destruct (B2 m) as [Q2|Q2]; [left|right; apply RUN; [rewrite <- PS; exact Q|exact Q2]]. unfold doc_xml, w_metadata. rewrite <- DEC, MD1. cbn [rbind]. rewrite <- PS, Q. cbn [rbind]. unfold element_xml in Q2. rewrite Q2. reflexivity.
  - intros m LM. apply RUN; [|apply B3; lia]. rewrite <- PS. apply (provenance_mono d fuel m prov); [lia|exact MP].
Qed.
Print Assumptions C68_file_again_partial.

(* ---------------------------------------------------------------- deciding the hypotheses *)
Definition completeb (d : document) (e : elementdata) : bool :=
  negb (et_eqb (e_type e) ET_Feature) || match r_subset d e, r_class d e with Ok (Some _), Ok (Some _) => true | _, _ => false end.
Lemma completeb_spec d : all_elements d (completeb d) = true -> features_complete d.
Proof.
  intros A k e G FE. pose proof (all_elements_spec _ _ A _ _ G) as H. cbn beta in H. unfold completeb in H. rewrite FE in H. change (negb (et_eqb ET_Feature ET_Feature)) with false in H. cbn [orb] in H.
  destruct (r_subset d e) as [[x|]| | |]; try discriminate. destruct (r_class d e) as [[c|]| | |]; try discriminate. split; eauto.
Qed.
Definition plain_layerb (d : document) (e : elementdata) : bool :=
  negb (group_contains EG_Layer (e_type e)) ||
  is_nil (filter plain_value (e_attribs e)) && forallb (fun j => match get_declaration d j with Some dec => negb (at_opt_eqb (et_annotationtype (e_type e)) (Some (d_type dec))) || soleb d j | None => true end) (seq 0 (length (st_items (doc_decls d)))).
Lemma plain_layerb_spec d : all_elements d (plain_layerb d) = true -> bare_layers_plain d.
Proof.
  intros A k e G (LY & _). pose proof (all_elements_spec _ _ A _ _ G) as H. cbn beta in H. unfold plain_layerb in H. rewrite LY in H. cbn [negb orb] in H. apply andb_prop in H. destruct H as (H1 & H2). split; [destruct (filter plain_value (e_attribs e)); [reflexivity|discriminate]|].
  intros j dec GD TY. rewrite forallb_forall in H2. assert (J : In j (seq 0 (length (st_items (doc_decls d))))). { apply in_seq. split; [lia|]. apply items_get in GD. apply nth_error_Some. rewrite GD. discriminate. }
  specialize (H2 j J). cbn beta in H2. rewrite GD in H2. apply orb_prop in H2. destruct H2 as [H2|H2].
  - exfalso. rewrite TY in H2. assert (Q : at_opt_eqb (Some (d_type dec)) (Some (d_type dec)) = true) by (destruct (d_type dec); reflexivity). rewrite Q in H2. discriminate.
  - destruct (mask_sole d j dec GD) as (b & N & S). unfold soleb in H2. rewrite N in H2. apply S, H2.
Qed.
Lemma full_spec d root : all_elements d (fun e => is_nil (span_refs e) || negb (is_nil (content e))) = true -> spanned_full d root.
Proof.
  intros A k e G NE. pose proof (all_elements_spec _ _ A _ _ G) as H. cbn beta in H. apply orb_prop in H. destruct H as [H|H]; [destruct (span_refs e); [congruence|discriminate]|]. left. destruct (content e); [discriminate|congruence].
Qed.
Fixpoint end_unspannedb (fuel : nat) (d : document) (k : nat) : bool :=
  match fuel with
  | 0 => false
  | S f => match get_elementdata d k with
           | Some e => is_nil (span_refs e) && match rev (e_data e) with DElement c :: _ => end_unspannedb f d c | _ => true end
           | None => false
           end
  end.
Lemma end_unspannedb_spec fuel d : forall k, end_unspannedb fuel d k = true -> end_unspanned d k.
Proof.
  induction fuel as [|f IH]; intros k H; [discriminate|]. cbn [end_unspannedb] in H. destruct (get_elementdata d k) as [e|] eqn:G; [|discriminate]. apply andb_prop in H. destruct H as (H1 & H2).
  apply (end_at d k e G); [destruct (span_refs e); [reflexivity|discriminate]|]. intros l c E. rewrite E, rev_app_distr in H2. cbn in H2. apply IH, H2.
Qed.
Definition roomb (d : document) : bool := forallb (fun o => match o with Some dec => forallb (fun v => N.leb (v_size v dec) (v_limit v)) [VClass; VSubset; VSubclass] | None => true end) (st_items (doc_decls d)).
Lemma roomb_spec d : roomb d = true -> room d.
Proof.
  intros H k dec v G. unfold roomb in H. rewrite forallb_forall in H. apply items_get in G. specialize (H _ (nth_error_In _ _ G)). cbn beta in H. rewrite forallb_forall in H. apply N.leb_le, H. destruct v; cbn; auto.
Qed.
Definition simpleb (d : document) : bool :=
  PropsLinks.nodupb (map fst (m_data (doc_metadata d))) && forallb (fun p => negb (String.eqb (snd p) "")) (m_data (doc_metadata d)) && forallb (fun p => is_nil (m_data (snd p))) (doc_submetadata d).
Lemma simpleb_spec d : simpleb d = true -> metadata_simple d.
Proof.
  unfold simpleb. intros H. apply andb_prop in H. destruct H as (H & C). apply andb_prop in H. destruct H as (A & B). apply PropsLinks.nodupb_spec in A. rewrite forallb_forall in B, C. split; [exact A|]. split.
  - intros k Q. apply smap_get_in in Q; [|exact A]. specialize (B _ Q). discriminate.
  - intros id x I'. specialize (C _ I'). cbn [snd] in C. destruct (m_data x); [reflexivity|discriminate].
Qed.
(* all hypotheses but for the last four *)
Definition resavable (d : document) : bool :=
  all_elements d (fun e => writableb d (text_first (e_type e)) (e_data e)) && all_elements d (fun e => forallb (in_rangeb rt_oracle) (e_attribs e)) && provenance_ok d && simpleb d && all_elements d (homeb d) && all_elements d (completeb d).
Definition resavable_layers (d : document) : bool := all_elements d (plain_layerb d).
Definition resavable_spans (d : document) : bool := all_elements d (fun e => is_nil (span_refs e) || negb (is_nil (content e))).
Record good_document (d : document) : Prop := {
  gd_settled : settled d; gd_writable : writable_doc d; gd_range : values_in_range rt_oracle d; gd_provenance : provenance_complete d; gd_metadata : metadata_simple d; gd_home : features_home d; gd_complete : features_complete d }.
Lemma resavable_spec d : settled d -> resavable d = true -> good_document d.
Proof.
  unfold resavable. intros S P. apply andb_prop in P. destruct P as (P & P6). apply andb_prop in P. destruct P as (P & P5). apply andb_prop in P. destruct P as (P & P4). apply andb_prop in P. destruct P as (P & P3). apply andb_prop in P. destruct P as (P1 & P2).
  split; [exact S| | |exact (provenance_ok_spec d P3)|apply simpleb_spec, P4|apply homeb_spec, P5|apply completeb_spec, P6].
  - intros k e G. apply writableb_spec, (all_elements_spec _ _ P1 _ _ G).
  - intros k e a G I'. pose proof (all_elements_spec _ _ P2 _ _ G) as Q. cbn beta in Q. rewrite forallb_forall in Q. apply in_rangeb_spec, Q, I'.
Qed.
(* a document saved, loaded and saved again *)
Record saved_again (i : nat) (d : document) (w : list wevent) (d' : document) (w' : list wevent) : Prop := {
  sa_first : doc_xml fuel1 rt_oracle d 0 = Ok w; sa_ids : NoDup (xml_ids (reread i w)); sa_load : parse_document fuel1 rt_oracle no_props (reread i w) = Ok d'; sa_room : room d'; sa_second : doc_xml fuel1 rt_oracle d' 0 = Ok w' }.
Lemma again_case i ops (P : document -> list wevent -> list wevent -> bool) :
  match exec_settled ex_doc ops with
  | Some d => match doc_xml fuel1 rt_oracle d 0 with
              | Ok w => match parse_document fuel1 rt_oracle no_props (reread i w) with
                        | Ok d' => match doc_xml fuel1 rt_oracle d' 0 with Ok w' => resavable d && PropsLinks.nodupb (xml_ids (reread i w)) && roomb d' && P d w w' | _ => false end
                        | _ => false end
              | _ => false end
  | None => false end = true ->
  exists d w d' w', good_document d /\ saved_again i d w d' w' /\ P d w w' = true.
Proof.
  destruct (exec_settled ex_doc ops) as [d|] eqn:E; [|discriminate]. destruct (doc_xml fuel1 rt_oracle d 0) as [w| | |] eqn:W; try discriminate. destruct (parse_document fuel1 rt_oracle no_props (reread i w)) as [d'| | |] eqn:L; try discriminate.
  destruct (doc_xml fuel1 rt_oracle d' 0) as [w'| | |] eqn:W'; try discriminate. intros H. apply andb_prop in H. destruct H as (H & H4). apply andb_prop in H. destruct H as (H & H3). apply andb_prop in H. destruct H as (H1 & H2).
  exists d, w, d', w'. split; [apply resavable_spec; [eapply exec_settled_spec; [exact ex_settled|exact E]|exact H1]|]. split; [|exact H4]. split; auto using PropsLinks.nodupb_spec, roomb_spec.
Qed.
(* the same documents have the same tags *)
Lemma meta_tags_in l l' : Permutation l l' -> forall x, In x (meta_tags l) -> In x (meta_tags l').
Proof. intros P x I'. unfold meta_tags in *. apply in_flat_map in I'. destruct I' as (y & Y & I'). apply in_flat_map. exists y. split; [eapply Permutation_in; eassumption|exact I']. Qed.
Lemma same_file_in w w' x : same_file w w' -> In x w -> In x w'.
Proof. intros (a & l & l' & b & -> & -> & P) I'. apply in_app_iff in I'. apply in_app_iff. destruct I' as [I'|I']; [auto|right]. apply in_app_iff in I'. apply in_app_iff. destruct I' as [I'|I']; [left; eapply meta_tags_in; eassumption|auto]. Qed.
Lemma same_file_length w w' : same_file w w' -> length w' = length w.
Proof.
  intros (a & l & l' & b & -> & -> & P). rewrite !app_length. do 2 f_equal. clear - P. unfold meta_tags. induction P; cbn [flat_map]; rewrite ?app_length; cbn [length app]; lia.
Qed.


(* ---------------------------------------------------------------- examples *)
(* decides that w has this tag *)
Fixpoint attrs_eqb (a b : list (string * string)) : bool :=
  match a, b with [], [] => true | (x, y) :: a', (u, v) :: b' => String.eqb x u && String.eqb y v && attrs_eqb a' b' | _, _ => false end.
Lemma attrs_eqb_spec a : forall b, attrs_eqb a b = true <-> a = b.
Proof.
  induction a as [|[x y] a IH]; intros [|[u v] b]; cbn; split; intros H; try discriminate; try reflexivity.
  - apply andb_prop in H. destruct H as (H & C). apply andb_prop in H. destruct H as (A & B). apply String.eqb_eq in A, B. apply IH in C. congruence.
  - injection H as -> -> ->. rewrite !String.eqb_refl. apply IH. reflexivity.
Qed.
Definition has_tag (name : string) (a : list (string * string)) (w : list wevent) : bool := existsb (fun x => match x with WStart n b | WEmpty n b => String.eqb n name && attrs_eqb b a | _ => false end) w.
Lemma has_tag_spec name a w : has_tag name a w = true <-> In (WStart name a) w \/ In (WEmpty name a) w.
Proof.
  unfold has_tag. rewrite existsb_exists. split.
  - intros (x & I' & H). destruct x; try discriminate; apply andb_prop in H; destruct H as (A & B); apply String.eqb_eq in A; apply attrs_eqb_spec in B; subst; auto.
  - intros [I'|I']; eexists; (split; [exact I'|]); cbn; rewrite String.eqb_refl; apply attrs_eqb_spec; reflexivity.
Qed.
Lemma other_tag name a w w' : has_tag name a w = true -> has_tag name a w' = false -> ~ same_file w w'.
Proof. intros H N S. apply has_tag_spec in H. assert (Q : has_tag name a w' = true) by (apply has_tag_spec; destruct H as [H|H]; [left|right]; eapply same_file_in; eassumption). congruence. Qed.
(* the example document with features, and annotations by two processors of one declaration *)
Example C68_nonvacuous : exists d w d' w' e, good_document d /\ saved_again 2 d w d' w' /\ get_elementdata d 0 = Some e /\ bare_layers_plain d /\ spanned_full d 0 /\ end_unspanned d 0 /\ plain_props d no_props /\
  has_tag "feat" [("xml:id", "f.1"); ("subset", "number"); ("class", "plural")] w = true /\ has_tag "wref" [("id", "w.2")] w = true.
Proof.
  destruct (again_case 2 two_sets (fun d w _ => resavable_layers d && resavable_spans d && end_unspannedb 9 d 0 && is_some (get_elementdata d 0) &&
    has_tag "feat" [("xml:id", "f.1"); ("subset", "number"); ("class", "plural")] w && has_tag "wref" [("id", "w.2")] w)) as (d & w & d' & w' & GD & SA & P); [vm_compute; reflexivity|].
  apply andb_prop in P. destruct P as (P & P6). apply andb_prop in P. destruct P as (P & P5). apply andb_prop in P. destruct P as (P & P4). apply andb_prop in P. destruct P as (P & P3). apply andb_prop in P. destruct P as (P1 & P2).
  destruct (get_elementdata d 0) as [e|] eqn:G; [|discriminate]. exists d, w, d', w', e. split; [exact GD|]. split; [exact SA|]. split; [exact G|]. split; [exact (plain_layerb_spec _ P1)|]. split; [exact (full_spec d 0 P2)|].
  split; [exact (end_unspannedb_spec _ _ _ P3)|]. split; [exact (no_props_plain _)|]. auto.
Qed.
(* a file with metadata and processors; one of the words of the entity has no content *)
Definition ex_full_head : list event :=
  [EvStart NsFolia "metadata" [xa "type" "native"]; EvStart NsFolia "annotations" [];
   EvStart NsFolia "text-annotation" []; EvEmpty NsFolia "annotator" [xa "processor" "p1"]; EvEnd NsFolia "text-annotation";
   EvStart NsFolia "pos-annotation" [xa "set" "posset"]; EvEmpty NsFolia "annotator" [xa "processor" "p1"]; EvEmpty NsFolia "annotator" [xa "processor" "p2"]; EvEnd NsFolia "pos-annotation";
   EvStart NsFolia "entity-annotation" [xa "set" "ents"]; EvEmpty NsFolia "annotator" [xa "processor" "p2"]; EvEnd NsFolia "entity-annotation";
   EvEnd NsFolia "annotations";
   EvStart NsFolia "provenance" []; EvEmpty NsFolia "processor" [xa "xml:id" "p1"; xa "name" "someone"; xa "type" "manual"]; EvEmpty NsFolia "processor" [xa "xml:id" "p2"; xa "name" "tagger"; xa "type" "auto"]; EvEnd NsFolia "provenance";
   EvStart NsFolia "meta" [xa "id" "language"]; EvText (Some "nld"); EvEnd NsFolia "meta"; EvStart NsFolia "meta" [xa "id" "title"]; EvText (Some "a < b"); EvEnd NsFolia "meta"].
Definition ex_full_nodes : list xnode :=
  [XElement "s" [xa "xml:id" "s.1"]
     [XElement "w" [xa "xml:id" "w.1"] [XElement "t" [] [XText "hello"]; XElement "pos" [xa "class" "N"; xa "processor" "p2"] [XElement "feat" [xa "subset" "number"; xa "class" "plural"] []]];
      XElement "w" [xa "xml:id" "w.2"] [];
      XElement "entities" [] [XElement "entity" [xa "class" "per"; xa "set" "ents"] [XElement "wref" [xa "id" "w.1"] []; XElement "wref" [xa "id" "w.2"] []]]]].
Definition ex_full_file (ev : list event) : list event :=
  document_events [EvOther] [xa "xml:id" "d"; xa "version" "2.5.0"] ex_full_head [EvText (Some " ")] "text" [xa "xml:id" "t.1"] (ev ++ [EvEnd NsFolia "text"; EvEnd NsFolia "FoLiA"]).
Fixpoint aboveb (fuel : nat) (d : document) (a k : nat) : bool :=
  match fuel with 0 => false | S f => match parent_of d k with Some b => Nat.eqb b a || aboveb f d a b | None => false end end.
Lemma aboveb_spec fuel d a : forall k, aboveb fuel d a k = true -> ancestor d a k.
Proof.
  induction fuel as [|f IH]; intros k H; [discriminate|]. cbn [aboveb] in H. destruct (parent_of d k) as [b|] eqn:P; [|discriminate]. apply orb_prop in H. destruct H as [H|H].
  - apply Nat.eqb_eq in H. subst b. apply anc_parent, P.
  - eapply anc_up; [exact P|apply IH, H].
Qed.
Definition fullb (d : document) (root : nat) : bool :=
  let ks := seq 0 (length (st_items (doc_elements d))) in
  forallb (fun k => match get_elementdata d k with Some e => is_nil (span_refs e) || negb (is_nil (content e)) || existsb (fun w => refersb d w k && aboveb 9 d root w) ks | None => true end) ks.
Lemma fullb_spec d root : fullb d root = true -> spanned_full d root.
Proof.
  intros A k e G NE. unfold fullb in A. rewrite forallb_forall in A. assert (K : In k (seq 0 (length (st_items (doc_elements d))))) by (apply in_seq; pose proof (get_lt _ _ _ G); lia). specialize (A k K). cbn beta in A. rewrite G in A.
  apply orb_prop in A. destruct A as [A|A]; [left; apply orb_prop in A; destruct A as [A|A]; [destruct (span_refs e); [congruence|discriminate]|destruct (content e); [discriminate|congruence]]|right].
  apply existsb_exists in A. destruct A as (w & _ & A). apply andb_prop in A. destruct A as (A & B). exists w. split; [apply refersb_spec, A|apply (aboveb_spec 9), B].
Qed.
Example C68_loaded_nonvacuous : exists d w d' w' e, good_document d /\ saved_again 2 d w d' w' /\ get_elementdata d 0 = Some e /\ bare_layers_plain d /\ spanned_full d 0 /\ end_unspanned d 0 /\
  has_tag "pos" [("class", "N"); ("processor", "p2")] w = true /\ has_tag "meta" [("id", "title")] w = true /\ w <> w' /\ exists x, get_elementdata d 6 = Some x /\ content x = [] /\ span_refs x = [8].
Proof.
  assert (X : exists ev, xml_events ex_full_nodes ev /\ complete_file (ex_full_file ev) /\ NoDup (xml_ids (ex_full_file ev)) /\ exists d, parse_document fuel1 rt_oracle no_props (ex_full_file ev) = Ok d /\
    match doc_xml fuel1 rt_oracle d 0 with
    | Ok w => match parse_document fuel1 rt_oracle no_props (reread 2 w) with
              | Ok d' => match doc_xml fuel1 rt_oracle d' 0 with
                         | Ok w' => resavable d && PropsLinks.nodupb (xml_ids (reread 2 w)) && roomb d' && resavable_layers d && fullb d 0 && end_unspannedb 9 d 0 && is_some (get_elementdata d 0) &&
                                    has_tag "pos" [("class", "N"); ("processor", "p2")] w && has_tag "meta" [("id", "title")] w &&
                                    match nth_error w 30, nth_error w' 30 with Some (WText a), Some (WText b) => negb (String.eqb a b) | _, _ => false end &&
                                    match get_elementdata d 6 with Some x => is_nil (content x) && match span_refs x with [8] => true | _ => false end | None => false end
                         | _ => false end
              | _ => false end
    | _ => false end = true).
  { eexists. match goal with |- ?a /\ _ => assert (X : a) by (unfold ex_full_nodes; repeat first [eapply ev_empty|econstructor]) end. split; [exact X|]. split.
    { eexists [EvOther], _, ex_full_head, [EvText (Some " "%string)], "text"%string, _, ex_full_nodes, _, [EvEnd NsFolia "FoLiA"]. split; [intros x [<-|[]] (? & ? & ? & E); discriminate E|].
      split; [intros I'; cbn in I'; decompose [or] I'; try discriminate; contradiction|]. split; [intros x [<-|[]] (? & ? & ? & E); discriminate E|]. split; [exact X|reflexivity]. }
    split; [apply PropsLinks.nodupb_spec; vm_compute; reflexivity|]. eexists. split; [vm_compute; reflexivity|]. vm_compute. reflexivity. }
  destruct X as (ev & _ & CF & NI & d & PD & P). pose proof (settled_load _ _ _ _ _ no_props_ok NI CF PD) as S. clear CF NI PD ev.
  destruct (doc_xml fuel1 rt_oracle d 0) as [w| | |] eqn:W; try discriminate. destruct (parse_document fuel1 rt_oracle no_props (reread 2 w)) as [d'| | |] eqn:L; try discriminate. destruct (doc_xml fuel1 rt_oracle d' 0) as [w'| | |] eqn:W'; try discriminate.
  apply andb_prop in P. destruct P as (P & Pb). apply andb_prop in P. destruct P as (P & Pa). apply andb_prop in P. destruct P as (P & P9). apply andb_prop in P. destruct P as (P & P8). apply andb_prop in P. destruct P as (P & P7).
  apply andb_prop in P. destruct P as (P & P6). apply andb_prop in P. destruct P as (P & P5). apply andb_prop in P. destruct P as (P & P4). apply andb_prop in P. destruct P as (P & P3). apply andb_prop in P. destruct P as (P1 & P2).
  destruct (get_elementdata d 0) as [e|] eqn:G; [|discriminate]. exists d, w, d', w', e. split; [apply resavable_spec; assumption|]. split; [split; auto using PropsLinks.nodupb_spec, roomb_spec|]. split; [exact G|]. split; [exact (plain_layerb_spec _ P4)|].
  split; [exact (fullb_spec d 0 P5)|]. split; [exact (end_unspannedb_spec _ _ _ P6)|]. split; [exact P8|]. split; [exact P9|]. split.
  - intros ->. destruct (nth_error w' 30) as [y|]; [|discriminate]. destruct y; try discriminate. rewrite String.eqb_refl in Pa. discriminate.
  - destruct (get_elementdata d 6) as [x|]; [|discriminate]. apply andb_prop in Pb. destruct Pb as (Pb & Pc). exists x. split; [reflexivity|]. split; [destruct (content x); [reflexivity|discriminate]|].
    destruct (span_refs x) as [|k r]; [discriminate|]. do 8 (destruct k as [|k]; [discriminate|]). destruct k; [|discriminate]. destruct r; [reflexivity|discriminate].
Qed.

(* ---------------------------------------------------------------- where the claim fails *)
Definition ent (set id : string) : elementdata := e_with_span (e_attr ET_Entity [A_Class "loc"; A_Set set]) [id].
(* A layer with an ID and without a set in its tag loses the ID. *)
Theorem C68_layer_id_refuted : exists d w d' w', good_document d /\ saved_again 2 d w d' w' /\ spanned_full d 0 /\ end_unspanned d 0 /\
  has_tag "entities" [("xml:id", "el.1")] w = true /\ has_tag "entities" [("xml:id", "el.1")] w' = false /\ ~ same_file w w'.
Proof.
  destruct (again_case 2 [OAddElementTo 10 (mkElem ET_EntitiesLayer [A_Id "el.1"; A_Set "entset"] [] None None); OAddElementTo 17 (ent "entset" "w.1")]
    (fun d w w' => resavable_spans d && end_unspannedb 9 d 0 && (has_tag "entities" [("xml:id", "el.1")] w && negb (has_tag "entities" [("xml:id", "el.1")] w')))) as (d & w & d' & w' & GD & SA & P); [vm_compute; reflexivity|].
  apply andb_prop in P. destruct P as (P & Q). apply andb_prop in P. destruct P as (P1 & P2). apply andb_prop in Q. destruct Q as (Q1 & Q2). apply negb_true_iff in Q2.
  exists d, w, d', w'. split; [exact GD|]. split; [exact SA|]. split; [exact (full_spec d 0 P1)|]. split; [exact (end_unspannedb_spec _ _ _ P2)|]. split; [exact Q1|]. split; [exact Q2|]. eapply other_tag; eassumption.
Qed.
Print Assumptions C68_layer_id_refuted.
(* A layer without a set, of an annotation type with two sets, takes the set of its content: the second file shows it. *)
Theorem C68_layer_set_refuted : exists d w d' w', good_document d /\ saved_again 2 d w d' w' /\ spanned_full d 0 /\ end_unspanned d 0 /\
  has_tag "entities" [("set", "otherset")] w = false /\ has_tag "entities" [("set", "otherset")] w' = true /\ ~ same_file w w'.
Proof.
  destruct (again_case 2 [OAddElementTo 10 (mkElem ET_EntitiesLayer [] [] None None); OAddElementTo 17 (ent "otherset" "w.1")]
    (fun d w w' => resavable_spans d && end_unspannedb 9 d 0 && (has_tag "entities" [] w && negb (has_tag "entities" [] w') && negb (has_tag "entities" [("set", "otherset")] w) && has_tag "entities" [("set", "otherset")] w'))) as (d & w & d' & w' & GD & SA & P); [vm_compute; reflexivity|].
  apply andb_prop in P. destruct P as (P & Q). apply andb_prop in P. destruct P as (P1 & P2). apply andb_prop in Q. destruct Q as (Q & Q4). apply andb_prop in Q. destruct Q as (Q & Q3). apply andb_prop in Q. destruct Q as (Q1 & Q2). apply negb_true_iff in Q2, Q3.
  exists d, w, d', w'. split; [exact GD|]. split; [exact SA|]. split; [exact (full_spec d 0 P1)|]. split; [exact (end_unspannedb_spec _ _ _ P2)|]. split; [exact Q3|]. split; [exact Q4|]. eapply other_tag; eassumption.
Qed.
Print Assumptions C68_layer_set_refuted.
(* A word without content that is part of an annotation outside the tree has an end tag of its own; the second time not. *)
Theorem C68_empty_word_refuted : exists d w d' w', good_document d /\ saved_again 2 d w d' w' /\ bare_layers_plain d /\ end_unspanned d 0 /\
  In (WStart "w" [("xml:id", "w.4")]) w /\ In (WEmpty "w" [("xml:id", "w.4")]) w' /\ ~ same_file w w'.
Proof.
  destruct (again_case 2 [OAddElementTo 10 (mkElem ET_Word [A_Id "w.4"] [] None None); OAddElementTo 11 (mkElem ET_Sentence [A_Id "s.2"] [] None None); OAddElement (mkElem ET_EntitiesLayer [A_Set "entset"] [] None None); OAddElementTo 19 (ent "entset" "w.4")]
    (fun d w w' => resavable_layers d && end_unspannedb 9 d 0 && (existsb (fun x => match x with WStart n a => String.eqb n "w" && attrs_eqb a [("xml:id", "w.4")] | _ => false end) w &&
       existsb (fun x => match x with WEmpty n a => String.eqb n "w" && attrs_eqb a [("xml:id", "w.4")] | _ => false end) w') && negb (Nat.eqb (length w') (length w)))) as (d & w & d' & w' & GD & SA & P); [vm_compute; reflexivity|].
  apply andb_prop in P. destruct P as (P & P5). apply andb_prop in P. destruct P as (P & Q). apply andb_prop in P. destruct P as (P1 & P2). apply andb_prop in Q. destruct Q as (Q1 & Q2). apply existsb_exists in Q1, Q2. destruct Q1 as (x & I1 & E1), Q2 as (y & I2 & E2).
  exists d, w, d', w'. split; [exact GD|]. split; [exact SA|]. split; [exact (plain_layerb_spec _ P1)|]. split; [exact (end_unspannedb_spec _ _ _ P2)|].
  split; [destruct x; try discriminate; apply andb_prop in E1; destruct E1 as (A & B); apply String.eqb_eq in A; apply attrs_eqb_spec in B; subst; exact I1|].
  split; [destruct y; try discriminate; apply andb_prop in E2; destruct E2 as (A & B); apply String.eqb_eq in A; apply attrs_eqb_spec in B; subst; exact I2|].
  intros S. apply same_file_length in S. rewrite S, Nat.eqb_refl in P5. discriminate.
Qed.
Print Assumptions C68_empty_word_refuted.
(* If the last word is part of an annotation outside the tree, one line break less is written the second time. *)
Theorem C68_last_word_refuted : exists d w d' w', good_document d /\ saved_again 2 d w d' w' /\ bare_layers_plain d /\ spanned_full d 0 /\ length w = S (length w') /\ ~ same_file w w'.
Proof.
  destruct (again_case 2 [OAddElementTo 10 (mkElem ET_Word [A_Id "w.4"] [DAddElement (mkElem ET_TextContent [] [DText "."] None None)] None None); OAddElement (mkElem ET_EntitiesLayer [A_Set "entset"] [] None None); OAddElementTo 19 (ent "entset" "w.4")]
    (fun d w w' => resavable_layers d && resavable_spans d && Nat.eqb (length w) (S (length w')))) as (d & w & d' & w' & GD & SA & P); [vm_compute; reflexivity|].
  apply andb_prop in P. destruct P as (P & P3). apply andb_prop in P. destruct P as (P1 & P2). apply Nat.eqb_eq in P3.
  exists d, w, d', w'. split; [exact GD|]. split; [exact SA|]. split; [exact (plain_layerb_spec _ P1)|]. split; [exact (full_spec d 0 P2)|]. split; [exact P3|]. intros S. apply same_file_length in S. lia.
Qed.
Print Assumptions C68_last_word_refuted.
