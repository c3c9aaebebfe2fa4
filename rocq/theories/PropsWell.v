(* C64: a document that is well formed loads. *)
From Coq Require Import String List Bool Arith NArith Lia.
From Verif Require Import Base BaseFacts Types TypesFacts SpecTable Attrib AttribFacts Element Store StoreFacts Metadata Document Select DocOps Xml Parser History Spec FrameFacts InvFacts DocFacts StoreThms InternFacts EncodeFacts PropsEncode LinkFacts TreeFacts ForestFacts PropsLinks NoPanic Returns PropsPanic Examples ParseSpec ParseFacts PropsParse PropsLoad WellSpec LoadOk.
Import ListNotations.
Open Scope string_scope.
Open Scope list_scope.

(* ---------------------------------------------------------------- what comes after the body tag is read by nothing before it *)
Lemma root_ahead prolog rattrs d d' rest r : (forall ev, In ev prolog -> ~ starts ev) -> parse_root d (prolog ++ EvStart NsFolia "FoLiA" rattrs :: rest) = Ok (d', r) ->
  forall l, parse_root d (prolog ++ EvStart NsFolia "FoLiA" rattrs :: l) = Ok (d', l).
Proof.
  induction prolog as [|ev p IH]; intros N H l.
  - cbn in H |- *. apply rbind_ok in H. destruct H as (d1 & A & B). rewrite A. injection B as <- <-. reflexivity.
  - assert (N1 : forall ev, In ev p -> ~ starts ev) by (intros; apply N; right; assumption). pose proof (N ev (or_introl eq_refl)) as NE.
    cbn [app parse_root] in H |- *. destruct ev; try (apply IH; assumption); try discriminate. exfalso. apply NE. eexists _, _, _. reflexivity.
Qed.
Lemma metadata_ahead head : forall d s d' r rest, ~ In (EvEnd NsFolia "metadata") head -> parse_metadata d s (head ++ EvEnd NsFolia "metadata" :: rest) = (d', Ok r) ->
  forall l, parse_metadata d s (head ++ EvEnd NsFolia "metadata" :: l) = (d', Ok l).
Proof.
  induction head as [|ev h IH]; intros d s d' r rest N H l.
  - cbn in H |- *. injection H as <- <-. reflexivity.
  - assert (N1 : ~ In (EvEnd NsFolia "metadata") h) by (intros X; apply N; right; exact X).
    assert (NE : ev <> EvEnd NsFolia "metadata") by (intros X; apply N; left; exact X).
    cbn [app parse_metadata] in H |- *. destruct ev as [ns name attrs|ns name attrs|ns name|[t|]|t|t| |]; try (eapply IH; eassumption); try discriminate.
    + apply sbind_ok in H. destruct H as (d1 & s1 & E & H). rewrite E. cbn [sbind]. eapply IH; eassumption.
    + apply sbind_ok in H. destruct H as (d1 & s1 & E & H). rewrite E. cbn [sbind]. eapply IH; eassumption.
    + destruct (meta_end d s ns name) as [d1 [s1|]] eqn:E; [eapply IH; eassumption|]. exfalso. apply NE. unfold meta_end in E. destruct ns; try discriminate.
      destruct (name =? "submetadata")%string; [discriminate|]. destruct (String.eqb_spec name "metadata") as [->|]; [reflexivity|].
      destruct (name =? "annotations")%string; [discriminate|]. destruct (name =? "provenance")%string; [discriminate|].
      destruct ((name =? "processor")%string && ms_prov s); [discriminate|]. destruct (name =? "meta")%string; [discriminate|].
      destruct ((name =? "annotator")%string && ms_decls s); [discriminate|]. destruct (ms_decls s); discriminate.
Qed.
Lemma body_ahead O gap name attrs rest b r : (forall ev, In ev gap -> ~ starts ev) -> parse_body O (gap ++ EvStart NsFolia name attrs :: rest) = Ok (Some b, r) ->
  forall l, parse_body O (gap ++ EvStart NsFolia name attrs :: l) = Ok (Some b, l).
Proof.
  induction gap as [|ev p IH]; intros N H l.
  - cbn in H |- *. destruct (String.eqb_spec name "text") as [->|].
    + destruct (parse_attributes O ET_Text attrs) as [x| | |] eqn:E; try discriminate. injection H as <- _. reflexivity.
    + destruct (String.eqb_spec name "speech") as [->|]; [|discriminate]. destruct (parse_attributes O ET_Speech attrs) as [x| | |] eqn:E; try discriminate. injection H as <- _. reflexivity.
  - assert (N1 : forall ev, In ev p -> ~ starts ev) by (intros; apply N; right; assumption). pose proof (N ev (or_introl eq_refl)) as NE.
    cbn [app parse_body] in H |- *. destruct ev; try (apply IH; assumption); try discriminate. exfalso. apply NE. eexists _, _, _. reflexivity.
Qed.
Lemma parse_document_ahead fuel O p prolog rattrs head gap name attrs ev d :
  (forall ev, In ev prolog -> ~ starts ev) -> ~ In (EvEnd NsFolia "metadata") head -> (forall ev, In ev gap -> ~ starts ev) ->
  parse_document fuel O p (document_events prolog rattrs head gap name attrs ev) = Ok d ->
  exists d1 d2 t x d3 d4 k, document_parts fuel O p rattrs head name attrs ev d d1 d2 t x d3 d4 k /\
    forall fuel' ev' d', parse_elements fuel' O d4 ev' = (d', Ok tt) -> parse_document fuel' O p (document_events prolog rattrs head gap name attrs ev') = Ok d'.
Proof.
  intros NP NH NG H. unfold parse_document in H. apply rbind_ok in H. destruct H as ([d1 l1] & R & H). pose proof (root_ahead _ _ _ _ _ _ NP R) as AR. apply root_found in R; [|exact NP]. destruct R as (R & ->).
  destruct (parse_metadata d1 ms_init _) as [d2 r2] eqn:M. apply rbind_ok in H. destruct H as (l2 & E2 & H). subst r2. pose proof (metadata_ahead _ _ _ _ _ _ NH M) as AM. apply metadata_found in M; [|exact NH]. destruct M as (-> & M).
  apply rbind_ok in H. destruct H as ([[body|] l3] & B & H); [|discriminate]. pose proof (body_ahead _ _ _ _ _ _ _ NG B) as AB. apply body_found in B; [|exact NG]. destruct B as (t & x & BT & PA & -> & ->).
  match type of H with (let (_, _) := ?x in _) = _ => destruct x as [d5 r5] eqn:E end.
  apply rbind_ok in H. destruct H as (u & -> & H). injection H as <-. destruct u.
  apply sbind_ok in E. destruct E as (d3 & k & E3 & E). pose proof E3 as E3'. apply map_err_ok in E3. apply sbind_ok in E. destruct E as (d4 & u & E4 & E). pose proof E4 as E4'. apply map_err_ok in E4. destruct u.
  exists d1, d2, t, x, d3, d4, k. split; [split; assumption|]. intros fuel' ev' d' PE. unfold parse_document, document_events. rewrite AR. cbn [rbind]. rewrite AM. cbn [rbind]. rewrite AB. cbn [rbind].
  rewrite E3'. cbn [sbind]. rewrite E4'. cbn [sbind]. rewrite PE. reflexivity.
Qed.
Lemma declares_declared d a s : doc_ok d -> declares d a s -> declared d a s.
Proof.
  intros (_ & (HD & _ & _) & _) (k & x & G & <- & <-). destruct HD as (_ & _ & Hu). unfold declared, get_declaration_key_by_id, st_id_to_key. rewrite (Hu k x _ G eq_refl). discriminate.
Qed.

(* ================================================================ C64 *)
(* A file whose frame (root tag, metadata, body tag) loads with an empty body loads with any well-formed body in it:
   when the IDs in it are distinct and there is room for its elements and for the declarations it needs. *)
Theorem C64_well_formed_loads : forall O p prolog rattrs head gap name attrs nodes ev after fuel0 d0 t own feats sets new ids ids' n, props_ok normal p ->
  (forall x, In x prolog -> ~ starts x) -> ~ In (EvEnd NsFolia "metadata") head -> (forall x, In x gap -> ~ starts x) ->
  parse_document fuel0 O p (document_events prolog rattrs head gap name attrs [EvEnd NsFolia name]) = Ok d0 ->
  xml_events nodes ev ->
  NoDup (xml_ids (EvStart NsFolia name attrs :: ev ++ EvEnd NsFolia name :: after)) ->
  body_tag name t -> reads_attributes O t attrs own feats -> (forall id, In id ids -> gives_id own id) ->
  well_formed O sets t [] ids nodes ids' n ->
  (forall a s, In (a, s) sets -> declares d0 a s \/ In (a, s) new) ->
  (N.of_nat (length (st_items (doc_decls d0)) + length new) <= 2 ^ 16)%N -> (N.of_nat (S n) <= 2 ^ 32)%N ->
  exists m d, (forall fuel, m <= fuel -> parse_document fuel O p (document_events prolog rattrs head gap name attrs (ev ++ EvEnd NsFolia name :: after)) = Ok d) /\
    length (st_items (doc_elements d)) = S n.
Proof.
  intros O p prolog rattrs head gap name attrs nodes ev after fuel0 d0 t own feats sets new ids ids' n GP NP NH NG PD XE ND BT RA GI WF SE LD LN.
  destruct (parse_document_ahead _ _ _ _ _ _ _ _ _ _ _ NP NH NG PD) as (d1 & d2 & t' & x & d3 & d4 & k & DP & AH). pose proof (parts_prims _ _ _ _ _ _ _ _ _ _ _ _ _ _ _ _ DP) as FU.
  destruct DP as [R M BT' PA ST AP PE]. unfold xml_ids in ND. cbn [flat_map] in ND. fold (xml_ids (ev ++ EvEnd NsFolia name :: after)) in ND.
  assert (t' = t). { destruct BT as [(-> & ->)|(-> & ->)], BT' as [(E & ->)|(E & ->)]; congruence. } subst t'.
  destruct (body_stored _ _ _ _ _ _ _ _ _ _ GP FU ND PA ST AP) as (-> & L2 & F2 & F4 & FO & EL & S4 & L4 & PI & TX & NI & LE34).
  destruct (parse_attributes_reads _ _ _ _ PA) as (fs & RA' & _). destruct (reads_same _ _ _ _ _ RA _ _ RA') as (EO & _).
  assert (d0 = d4). { unfold parse_elements in PE. destruct (st_items (doc_elements d4)); [discriminate|]. cbn in PE. injection PE as <-. reflexivity. } subst d0.
  assert (L : loading sets d4 [0] [t] ids (ev ++ EvEnd NsFolia name :: after)).
  { split; [exact F4|exact PI| | |].
    - constructor; [|constructor]. unfold sh in S4. destruct (get_elementdata d4 0) as [e|] eqn:G; [|discriminate]. exists e. split; [exact G|]. injection S4 as S4 _ _. exact S4.
    - intros id I. eapply has_id_le; [exact LE34|]. eapply store_has_id; [exact NI|exact ST|]. rewrite EO. apply gives_id_first, GI, I.
    - exists new. split; [|exact LD]. intros a s I. destruct (SE a s I) as [D|D]; [left; apply declares_declared; [apply F4|exact D]|right; exact D]. }
  destruct (content_loads O sets nodes ev XE _ _ _ _ _ WF d4 0 [] _ L) as (d5 & (m & LE) & L5 & LEN & FO5); [rewrite L4; exact LN|].
  exists m, d5. split; [|unfold sh_len, st_len in LEN, L4; rewrite LEN, L4; reflexivity]. intros fuel F. apply AH. unfold parse_elements.
  unfold sh_len, st_len in L4. destruct (st_items (doc_elements d4)); [discriminate L4|]. rewrite (LE fuel F). reflexivity.
Qed.
Print Assumptions C64_well_formed_loads.
(* a body with words, an annotation with a feature, a foreign tag, a comment, and an entity that refers to the words *)
Definition well_nodes : list xnode :=
  [XText " "; XElement "s" [xa "xml:id" "s.1"]
     [XElement "w" [xa "xml:id" "w.1"; xa "class" "WORD"; xa "set" "tokset"]
        [XElement "t" [] [XText "hello"]; XForeign "span" [] [XElement "pos" [xa "class" "N"; xa "head" "noun"] []; XComment "checked"]];
      XElement "w" [xa "xml:id" "w.2"] [XElement "t" [] [XCData "world"]]; XOther;
      XElement "entities" [] [XElement "entity" [xa "xml:id" "e.1"; xa "set" "nerset"; xa "class" "per"] [XElement "wref" [xa "id" "w.1"] []; XElement "wref" [xa "id" "w.2"; xa "t" "world"] []]]]].
Definition well_sets : list (AnnotationType * option string) :=
  [(AT_SENTENCE, None); (AT_TOKEN, Some "tokset"); (AT_TOKEN, None); (AT_TEXT, None); (AT_POS, None); (AT_ENTITY, None); (AT_ENTITY, Some "nerset")].
Ltac wf_in := first [left; reflexivity|right; wf_in].
Ltac wf_set := let a := fresh in let s := fresh in let E := fresh in let G := fresh in intros a s E G; vm_compute in E; first [discriminate E|injection E as <-;
  destruct s as [s|]; [cbn in G; decompose [or] G; try contradiction; match goal with Q : A_Set _ = _ |- _ => injection Q as <- | Q : _ = A_Set _ |- _ => first [discriminate Q|injection Q as <-] end; cbn; tauto
                      |first [exfalso; eapply G; cbn; wf_in|cbn; tauto]]].
Ltac wf_cov := split; [wf_set|split; [intros ? ? E; discriminate E|intros ? NE E; first [contradiction NE; reflexivity|vm_compute in E; injection E as <-; cbn; tauto]]].
Ltac wf_read := repeat first [apply reads_none|eapply reads_attribute; [vm_compute; reflexivity|]|eapply reads_feature; [vm_compute; reflexivity|reflexivity|apply shortcut_name_spec; vm_compute; reflexivity|]].
Ltac wf_id := let id := fresh in let I := fresh in intros id I; first [destruct I; fail|destruct I as [I|[]]; subst; split; [cbn; wf_in|let x := fresh in let J := fresh in intros x J; cbn in J; decompose [or] J; try contradiction; try discriminate; congruence]].
Ltac wf_tag new := eapply (wf_element _ _ _ _ _ _ _ _ _ _ _ _ new); [reflexivity|wf_read|discriminate|wf_cov|wf_id|cbn [app]| |].
Lemma well_nodes_ok : exists n, well_formed any_oracle well_sets ET_Text [] ["t.1"] well_nodes ["e.1"; "w.2"; "w.1"; "s.1"; "t.1"] n /\ n = 11.
Proof.
  unfold well_nodes. eexists. split; [apply wf_text|].
  - wf_tag ["s.1"]; [|discriminate|apply wf_nothing].
    wf_tag ["w.1"]; [|discriminate|].
    + wf_tag (@nil string); [apply wf_text, wf_nothing|discriminate|]. eapply wf_foreign; [|apply wf_nothing].
      wf_tag (@nil string); [apply wf_nothing|discriminate|apply wf_comment, wf_nothing].
    + wf_tag ["w.2"]; [|discriminate|].
      * wf_tag (@nil string); [apply wf_cdata, wf_nothing|discriminate|apply wf_nothing].
      * apply wf_other. wf_tag (@nil string); [|discriminate|apply wf_nothing]. wf_tag ["e.1"]; [|discriminate|apply wf_nothing].
        wf_tag (@nil string); [apply wf_nothing|intros _|].
        { split; [eexists; cbn; wf_in|]. split; [intros id I; cbn in I; decompose [or] I; try contradiction; try discriminate; match goal with Q : _ = A_Idref _ |- _ => injection Q as <- end; cbn; tauto|]. exists ET_Entity. cbn. tauto. }
        wf_tag (@nil string); [apply wf_nothing|intros _|apply wf_nothing].
        { split; [eexists; cbn; wf_in|]. split; [intros id I; cbn in I; decompose [or] I; try contradiction; try discriminate; match goal with Q : _ = A_Idref _ |- _ => injection Q as <- end; cbn; tauto|]. exists ET_Entity. cbn. tauto. }
  - vm_compute. reflexivity.
Qed.
(* the hypotheses of C64 hold of a file with this body: only the part-of-speech declaration with a set is in its metadata *)
Example C64_nonvacuous : exists ev d0 new n ids', (forall x, In x [EvOther] -> ~ starts x) /\ ~ In (EvEnd NsFolia "metadata") ex_head /\ (forall x, In x [EvText (Some " ")] -> ~ starts x) /\
  parse_document fuel1 any_oracle no_props (document_events [EvOther] [xa "xml:id" "d"; xa "version" "2.5.0"] ex_head [EvText (Some " ")] "text" [xa "xml:id" "t.1"] [EvEnd NsFolia "text"]) = Ok d0 /\
  xml_events well_nodes ev /\ NoDup (xml_ids (EvStart NsFolia "text" [xa "xml:id" "t.1"] :: ev ++ EvEnd NsFolia "text" :: [EvEnd NsFolia "FoLiA"])) /\
  body_tag "text" ET_Text /\ reads_attributes any_oracle ET_Text [xa "xml:id" "t.1"] [A_Id "t.1"] [] /\ gives_id [A_Id "t.1"] "t.1" /\
  well_formed any_oracle well_sets ET_Text [] ["t.1"] well_nodes ids' n /\ (forall a s, In (a, s) well_sets -> declares d0 a s \/ In (a, s) new) /\
  (N.of_nat (length (st_items (doc_decls d0)) + length new) <= 2 ^ 16)%N /\ (N.of_nat (S n) <= 2 ^ 32)%N /\ declares d0 AT_POS (Some "posset") /\ n = 11.
Proof.
  eexists _, _, well_sets, 11, _. split; [intros x [<-|[]] (? & ? & ? & E); discriminate E|]. split; [intros I; cbn in I; decompose [or] I; try discriminate; contradiction|].
  split; [intros x [<-|[]] (? & ? & ? & E); discriminate E|]. split; [vm_compute; reflexivity|].
  split; [unfold well_nodes; repeat first [eapply (ev_foreign NsNone); [discriminate| |]|econstructor]|]. split; [|split; [|split; [|split; [|split; [|split; [|split; [|split; [|split]]]]]]]].
  - vm_compute. repeat (constructor; [cbn; intros I; decompose [or] I; try discriminate; contradiction|]). constructor.
  - left. auto.
  - wf_read.
  - split; [left; reflexivity|intros x [E|[]]; congruence].
  - destruct well_nodes_ok as (n & W & ->). exact W.
  - auto.
  - vm_compute. discriminate.
  - vm_compute. discriminate.
  - exists 0. eexists. vm_compute. eauto.
  - reflexivity.
Qed.
