(* C67: words and the span annotations over them stay linked. *)
From Coq Require Import String List Bool Arith NArith Lia.
From Verif Require Import Base Types SpecTable Attrib Element Store Metadata Document Select DocOps Xml Parser.
From Verif Require Import BaseFacts TypesFacts StoreFacts History Spec FrameFacts DocFacts StoreThms InvFacts EncodeFacts LinkFacts TreeFacts ForestFacts Examples PropsLinks SelSpec SelectFacts NoPanic SpanFacts SpanSpec SpanLinks SerSpec ParseSpec ParseFacts PropsParse PropsTree PropsRound PropsSave.
Import ListNotations.
Open Scope list_scope.

(* ---------------------------------------------------------------- the documents *)
(* A file that is not cut off: metadata, then a body in which every tag is closed. *)
Definition complete_file (l : list event) : Prop := exists prolog rattrs head gap name attrs nodes ev after,
  (forall x, In x prolog -> ~ starts x) /\ ~ In (EvEnd NsFolia "metadata") head /\ (forall x, In x gap -> ~ starts x) /\ xml_events nodes ev /\
  l = document_events prolog rattrs head gap name attrs (ev ++ EvEnd NsFolia name :: after).
(* The operation does not move or remove a word reference, or anything with a word reference in it. *)
Definition keeps_word_references (d : document) (o : op) : Prop :=
  match o with
  | OAttach _ c | ODetach c => forall w e, get_elementdata d w = Some e -> e_type e = ET_WordReference -> w <> c /\ ~ ancestor d c w
  | _ => True
  end.
(* As [tidy]; files are not cut off, and word references stay where they were put. *)
Inductive settled : document -> Prop :=
  | settled_new id p d : props_ok normal p -> doc_new id p = (d, Ok tt) -> settled d
  | settled_load fuel O p l d : props_ok normal p -> NoDup (xml_ids l) -> complete_file l -> parse_document fuel O p l = Ok d -> settled d
  | settled_step d o d' : settled d -> careful_step d o d' -> keeps_word_references d o -> settled d'.

(* ---------------------------------------------------------------- loading *)
Lemma pinv_ids d st l l' : pinv d st l -> NoDup (xml_ids l') -> (forall id, In id (xml_ids l') -> In id (xml_ids l)) -> pinv d st l'.
Proof. intros [F N O' I' X] ND S. split; auto. intros id H J. apply (I' id H), S, J. Qed.
Lemma loop_step fuel O d st ev r d' : parse_elements_loop fuel O d st (ev :: r) = (d', Ok tt) ->
  exists d1 p, elements_step fuel O d st ev = (d1, Ok p) /\ match p with PContinue st' => parse_elements_loop fuel O d1 st' r = (d', Ok tt) | PBreak => d1 = d' end.
Proof. cbn [parse_elements_loop]. intros H. apply sbind_ok in H. destruct H as (d1 & p & S & H). exists d1, p. split; [exact S|]. destruct p; [exact H|congruence]. Qed.
(* the kind of event decides which elements are open afterwards *)
Lemma start_opens fuel O d st name attrs d1 p : elements_step fuel O d st (EvStart NsFolia name attrs) = (d1, Ok p) -> exists key, p = PContinue (key :: st).
Proof. cbn [elements_step]. intros H. repeat (apply sbind_ok in H; destruct H as (? & ? & _ & H)). injection H as _ <-. eauto. Qed.
Lemma empty_opens fuel O d st name attrs d1 p : elements_step fuel O d st (EvEmpty NsFolia name attrs) = (d1, Ok p) -> p = PContinue st.
Proof. cbn [elements_step]. intros H. repeat (apply sbind_ok in H; destruct H as (? & ? & _ & H)). injection H as _ <-. reflexivity. Qed.
Lemma end_opens fuel O d key top st name d1 p : elements_step fuel O d (key :: top :: st) (EvEnd NsFolia name) = (d1, Ok p) -> p = PContinue (top :: st).
Proof.
  cbn [elements_step]. intros H. apply sbind_ok in H. destruct H as (d2 & u & _ & H). destruct (get_elementdata d2 key); [|discriminate]. apply sbind_ok in H. destruct H as (d3 & et & _ & H).
  destruct (et_eqb _ et); [|discriminate]. apply sbind_ok in H. destruct H as (d4 & v & _ & H). injection H as _ <-. reflexivity.
Qed.
Lemma cons_ne {A} (x : A) l : x :: l <> [].
Proof. discriminate. Qed.
Lemma nodes_ties fuel O nodes ev : xml_events nodes ev -> forall st rest d d', st <> [] -> pinv d st (ev ++ rest) -> (exists done, tied d st [] done) ->
  parse_elements_loop fuel O d st (ev ++ rest) = (d', Ok tt) ->
  exists d1, pinv d1 st rest /\ (exists done, tied d1 st [] done) /\ parse_elements_loop fuel O d1 st rest = (d', Ok tt).
Proof.
  assert (STEP : forall ev l d st d1 st', st <> [] -> pinv d st (ev :: l) -> (exists done, tied d st [] done) -> elements_step fuel O d st ev = (d1, Ok (PContinue st')) -> pinv d1 st' l /\ exists done, tied d1 st' [] done).
  { intros e l d st d1 st' NE PI (done & T) S. split; [exact (elements_step_pinv _ _ _ _ _ _ _ _ PI S)|]. exact (step_open_ties _ _ _ _ _ _ _ _ _ PI NE T S). }
  intros X. induction X as [|name attrs inside l rest m X1 IH1 X2 IH2|name attrs rest m X IH|ns name attrs inside l rest m NF X1 IH1 X2 IH2|ns name attrs rest m NF X IH|s rest m X IH|s rest m X IH|s rest m X IH|rest m X IH];
    intros st r d d' NE PI T H.
  - cbn [app] in *. eauto.
  - cbn [app] in *. rewrite <- app_assoc in *. cbn [app] in *. apply loop_step in H. destruct H as (d1 & p & S & H). destruct (start_opens _ _ _ _ _ _ _ _ S) as (key & ->).
    destruct (STEP _ _ _ _ _ _ NE PI T S) as (PI1 & T1). destruct (IH1 (key :: st) _ d1 d' (cons_ne _ _) PI1 T1 H) as (d2 & PI2 & T2 & H2). apply loop_step in H2. destruct H2 as (d3 & p & S3 & H3).
    destruct st as [|top st]; [congruence|]. pose proof (end_opens _ _ _ _ _ _ _ _ _ S3) as ->. destruct (STEP _ _ _ _ _ _ (cons_ne _ _) PI2 T2 S3) as (PI3 & T3). exact (IH2 (top :: st) r d3 d' NE PI3 T3 H3).
  - cbn [app] in *. apply loop_step in H. destruct H as (d1 & p & S & H). pose proof (empty_opens _ _ _ _ _ _ _ _ S) as ->. destruct (STEP _ _ _ _ _ _ NE PI T S) as (PI1 & T1). exact (IH st r d1 d' NE PI1 T1 H).
  - cbn [app] in *. rewrite <- app_assoc in *. cbn [app] in *. apply loop_step in H. destruct H as (d1 & p & S & H). assert (E : (d1, Ok p) = (d, Ok (PContinue st))) by (rewrite <- S; destruct ns; [contradiction|reflexivity..]). injection E as -> ->.
    destruct (STEP _ _ _ _ _ _ NE PI T S) as (PI1 & T1). destruct (IH1 st _ d d' NE PI1 T1 H) as (d2 & PI2 & T2 & H2). apply loop_step in H2. destruct H2 as (d3 & p & S3 & H3).
    assert (E : (d3, Ok p) = (d2, Ok (PContinue st))) by (rewrite <- S3; destruct ns; [contradiction|reflexivity..]). injection E as -> ->. destruct (STEP _ _ _ _ _ _ NE PI2 T2 S3) as (PI3 & T3). exact (IH2 st r d2 d' NE PI3 T3 H3).
  - cbn [app] in *. apply loop_step in H. destruct H as (d1 & p & S & H). assert (E : (d1, Ok p) = (d, Ok (PContinue st))) by (rewrite <- S; destruct ns; [contradiction|reflexivity..]). injection E as -> ->.
    destruct (STEP _ _ _ _ _ _ NE PI T S) as (PI1 & T1). exact (IH st r d d' NE PI1 T1 H).
  - cbn [app] in *. apply loop_step in H. destruct H as (d1 & p & S & H). assert (E : p = PContinue st) by (cbn in S; congruence). subst p. destruct (STEP _ _ _ _ _ _ NE PI T S) as (PI1 & T1). exact (IH st r d1 d' NE PI1 T1 H).
  - cbn [app] in *. apply loop_step in H. destruct H as (d1 & p & S & H). assert (E : p = PContinue st) by (cbn in S; congruence). subst p. destruct (STEP _ _ _ _ _ _ NE PI T S) as (PI1 & T1). exact (IH st r d1 d' NE PI1 T1 H).
  - cbn [app] in *. apply loop_step in H. destruct H as (d1 & p & S & H). assert (E : p = PContinue st) by (cbn in S; congruence). subst p. destruct (STEP _ _ _ _ _ _ NE PI T S) as (PI1 & T1). exact (IH st r d1 d' NE PI1 T1 H).
  - cbn [app] in *. apply loop_step in H. destruct H as (d1 & p & S & H). assert (E : p = PContinue st) by (cbn in S; congruence). subst p. destruct (STEP _ _ _ _ _ _ NE PI T S) as (PI1 & T1). exact (IH st r d1 d' NE PI1 T1 H).
Qed.
Lemma load_ties fuel O p l d : props_ok normal p -> NoDup (xml_ids l) -> complete_file l -> parse_document fuel O p l = Ok d -> ties d.
Proof.
  intros GP ND (prolog & rattrs & head & gap & name & attrs & nodes & ev & after & NP & NH & NG & XE & ->) H.
  destruct (parse_document_parts _ _ _ _ _ _ _ _ _ _ _ NP NH NG H) as (d1 & d2 & t & x & d3 & d4 & k & DP). pose proof (parts_prims _ _ _ _ _ _ _ _ _ _ _ _ _ _ _ _ DP) as FU. destruct DP as [R M BT PA ST AP PE].
  assert (XI : NoDup (tag_ids attrs ++ xml_ids (ev ++ EvEnd NsFolia name :: after))).
  { assert (S : suffix (EvStart NsFolia name attrs :: ev ++ EvEnd NsFolia name :: after) (document_events prolog rattrs head gap name attrs (ev ++ EvEnd NsFolia name :: after))).
    { unfold document_events. exists (prolog ++ EvStart NsFolia "FoLiA" rattrs :: head ++ EvEnd NsFolia "metadata" :: gap). rewrite <- app_assoc. cbn [app]. rewrite <- app_assoc. reflexivity. }
    apply suffix_ids in S. destruct S as (a & S). rewrite S in ND. apply NoDup_app_inv in ND. destruct ND as (_ & ND & _). exact ND. }
  destruct (body_stored _ _ _ _ _ _ _ _ _ _ GP FU XI PA ST AP) as (-> & L2 & F2 & F4 & FO & EL & S4 & L4 & PI & TX & NI & LE34).
  pose proof (tied_store d2 [0] [] [] (mkElem t (fst x) [] None None) None eq_refl eq_refl (empty_ties d2 [0] L2)) as T3. rewrite ST in T3. cbn [fst] in T3.
  assert (T4 : tied d4 [0] [] []). { pose proof (ext_same _ _ EL) as E. apply (tied_ext d3 d4 [0] [0] [] [] []); [exact E|intros j q; apply vpar_ext, E|intros w W; exact W| |exact T3]. intros w e' _ _ P. left. unfold parent_of, get_elementdata in *. rewrite EL in P. exact P. }
  unfold parse_elements in PE. destruct (st_items (doc_elements d4)) as [|e0 l0]; [discriminate|]. clear e0 l0.
  destruct (nodes_ties fuel O nodes ev XE [0] (EvEnd NsFolia name :: after) d4 d (cons_ne _ _) PI (ex_intro _ [] T4) PE) as (d5 & PI5 & (done & T5) & PE5). cbn in PE5. injection PE5 as ->.
  exists done. apply (tied_ext d d [0] [] [] [] done); [apply ext_refl|intros k q Q; exact Q|intros w W; exact W|auto|exact T5].
Qed.
Lemma settled_tidy d : settled d -> tidy d.
Proof. intros S. induction S; [eapply tidy_new; eassumption|eapply tidy_load; eassumption|eapply tidy_step; eassumption]. Qed.
Lemma settled_ties d : settled d -> ties d.
Proof.
  intros S. induction S as [id p d P H|fuel O p l d P N C H|d o d' S IH ST K].
  - eapply new_ties, H.
  - eapply load_ties; eassumption.
  - destruct o as [e|p e|e ctx|p c|c|p e|e|t s|x|dk c|p|p|k p|p c|k|p]; try (refine (step_ties d _ d' _ _ ST IH); discriminate).
    + destruct ST as (_ & _ & fuel & r & H & _). cbn [run_op] in H. pose proof (attach_moved d p c) as M. replace d' with (fst (attach_element d p c)) by (rewrite H; reflexivity). eapply moved_ties; [exact M|exact K|exact IH].
    + destruct ST as (_ & _ & fuel & r & H & _). cbn [run_op] in H. pose proof (detach_moved d c) as M. replace d' with (fst (detach_element d c)) by (rewrite H; reflexivity). eapply moved_ties; [exact M|exact K|exact IH].
Qed.

(* ================================================================ C67 *)
(* Every word reference in the tree refers to an element that exists and lies within a span annotation. The span annotations
   that an element says it is part of are those of the word references to it, once for each reference, and no others. *)
Theorem C67_spans_linked_partial : forall d, settled d -> spans_linked d.
Proof. intros d S. apply ties_linked, settled_ties, S. Qed.
Print Assumptions C67_spans_linked_partial.

(* running operations that keep word references in place *)
Definition wrefs_clear (fuel : nat) (d : document) (c : nat) : bool :=
  forallb (fun w => match get_elementdata d w with Some e => negb (et_eqb (e_type e) ET_WordReference) || (negb (Nat.eqb w c) && not_above fuel d c w) | None => true end) (seq 0 (length (st_items (doc_elements d)))).
Lemma wrefs_clear_spec fuel d c : wrefs_clear fuel d c = true -> forall w e, get_elementdata d w = Some e -> e_type e = ET_WordReference -> w <> c /\ ~ ancestor d c w.
Proof.
  unfold wrefs_clear. rewrite forallb_forall. intros H w e G T. assert (L : w < st_len (doc_elements d)) by (unfold get_elementdata in G; apply st_get_lt in G; exact G).
  specialize (H w). rewrite G, T in H. assert (Q : In w (seq 0 (length (st_items (doc_elements d))))) by (apply in_seq; unfold st_len in L; lia). specialize (H Q). cbn in H. apply andb_prop in H. destruct H as (A & B).
  split; [destruct (Nat.eqb_spec w c); [discriminate|assumption]|apply (not_above_spec fuel), B].
Qed.
Definition settledb (d : document) (o : op) : bool :=
  normal_opb d o && match o with
                    | OAttach p c => negb (Nat.eqb p c) && not_above fuel1 d c p && wrefs_clear fuel1 d c
                    | ODetach c => wrefs_clear fuel1 d c
                    | _ => carefulb d o
                    end.
Fixpoint exec_settled (d : document) (l : list op) : option document :=
  match l with
  | [] => Some d
  | o :: r => if settledb d o then match run_op fuel1 d o with (d1, Ok _) => exec_settled d1 r | _ => None end else None
  end.
Lemma exec_settled_spec l : forall d d', settled d -> exec_settled d l = Some d' -> settled d'.
Proof.
  induction l as [|o l IH]; intros d d' T H; cbn [exec_settled] in H; [injection H as <-; exact T|]. destruct (settledb d o) eqn:B; [|discriminate]. unfold settledb in B. apply andb_prop in B. destruct B as (B1 & B2).
  destruct (run_op fuel1 d o) as [d1 [[]| | |]] eqn:R; try discriminate. apply (IH d1 d'); [|exact H]. clear H IH.
  assert (C : careful d o /\ keeps_word_references d o).
  { destruct o; try (split; [apply carefulb_spec, B2|exact I]).
    - apply andb_prop in B2. destruct B2 as (B2 & B3). apply andb_prop in B2. destruct B2 as (B2 & B4). split; [|exact (wrefs_clear_spec _ _ _ B3)]. split; [destruct (Nat.eqb_spec parent child); [discriminate|assumption]|apply (not_above_spec fuel1), B4].
    - split; [exact I|exact (wrefs_clear_spec _ _ _ B2)]. }
  destruct C as (C & K). eapply settled_step; [exact T| |exact K]. split; [apply normal_opb_spec, B1|]. split; [exact C|]. exists fuel1, (Ok tt). split; [exact R|]. split; [exact I|auto].
Qed.
Lemma ex_new_settled : settled ex_new.
Proof. apply (settled_new "example"%string ex_props); [apply props_okb_spec; vm_compute; reflexivity|vm_compute; reflexivity]. Qed.
Lemma ex_settled : settled ex_doc.
Proof. eapply (exec_settled_spec ex_ops); [exact ex_new_settled|]. vm_compute. reflexivity. Qed.
Definition refs_of (d : document) (k : nat) : list nat := match get_elementdata d k with Some e => span_refs e | None => [] end.
(* decides the references of the word references *)
Definition refersb (d : document) (w k : nat) : bool :=
  match get_elementdata d w with
  | Some e => et_eqb (e_type e) ET_WordReference && match idref e with Some id => match get_element_key_by_id d id with Some j => Nat.eqb j k | None => false end | None => false end
  | None => false
  end.
Lemma refersb_spec d w k : refersb d w k = true <-> refers d w k.
Proof.
  unfold refersb, refers. split.
  - destruct (get_elementdata d w) as [e|] eqn:G; [|discriminate]. intros H. apply andb_prop in H. destruct H as (T & H). destruct (idref e) as [id|] eqn:I'; [|discriminate]. destruct (get_element_key_by_id d id) as [j|] eqn:K; [|discriminate].
    apply Nat.eqb_eq in H. subst j. destruct (et_eqb_spec (e_type e) ET_WordReference); [|discriminate]. exists e, id. auto.
  - intros (e & id & -> & -> & -> & ->). cbn. apply Nat.eqb_refl.
Qed.
(* the tags of a dependency over two of the three words of a sentence; its head is inside an element of its own *)
Definition ex_dep_nodes : list xnode :=
  [XElement "s" [xa "xml:id" "s.1"]
     [XElement "w" [xa "xml:id" "w.1"] [XElement "t" [] [XText "hello"]]; XElement "w" [xa "xml:id" "w.2"] []; XElement "w" [xa "xml:id" "w.3"] [];
      XElement "dependencies" [] [XElement "dependency" [xa "class" "su"; xa "set" "deps"]
        [XElement "hd" [] [XElement "wref" [xa "id" "w.1"] []]; XElement "dep" [] [XElement "wref" [xa "id" "w.3"] []]]];
      XElement "entities" [] [XElement "entity" [xa "class" "per"; xa "set" "ents"] [XElement "wref" [xa "id" "w.1"] [XElement "comment" [] [XText "sure"]]]]]].
Definition dep_oracle : oracle := mkOracle (fun _ => None) (fun _ => "0.5"%string).
Example C67_nonvacuous : settled ex_doc /\ refs_of ex_doc 6 = [15] /\ refers ex_doc 13 6 /\ parent_of ex_doc 13 <> None /\
  exists ev d d', xml_events ex_dep_nodes ev /\ complete_file (ex_file ev) /\ NoDup (xml_ids (ex_file ev)) /\ parse_document fuel1 dep_oracle no_props (ex_file ev) = Ok d /\ settled d /\
    refs_of d 2 = [7; 13] /\ refs_of d 5 = [7] /\ parent_of d 9 = Some 8 /\ parent_of d 8 = Some 7 /\
    (* a word without references moved from the sentence to the body, and one more span annotation *)
    settled d' /\ parent_of d' 4 = Some 0 /\ refs_of d' 2 = [7; 13; 18] /\ refs_of d' 4 = [].
Proof.
  split; [exact ex_settled|]. split; [vm_compute; reflexivity|]. split; [apply refersb_spec; vm_compute; reflexivity|]. split; [vm_compute; discriminate|].
  eexists _, _, _. match goal with |- ?a /\ _ => assert (X : a) by (unfold ex_dep_nodes; repeat first [eapply ev_empty|econstructor]) end. split; [exact X|]. clear X.
  match goal with |- ?a /\ _ => assert (C : a) end.
  { eexists [EvOther], _, ex_head, [EvText (Some " "%string)], "text"%string, _, ex_dep_nodes, _, [EvEnd NsFolia "FoLiA"]. split; [intros x [<-|[]] (? & ? & ? & E); discriminate E|].
    split; [intros I'; cbn in I'; decompose [or] I'; try discriminate; contradiction|]. split; [intros x [<-|[]] (? & ? & ? & E); discriminate E|]. split; [unfold ex_dep_nodes; repeat first [eapply ev_empty|econstructor]|reflexivity]. }
  split; [exact C|]. match goal with |- ?a /\ _ => assert (N : a) end.
  { vm_compute. repeat (constructor; [cbn; intros I'; decompose [or] I'; try discriminate; contradiction|]). constructor. }
  split; [exact N|]. match goal with |- ?a /\ _ => assert (P : a) by (vm_compute; reflexivity) end. split; [exact P|].
  match goal with |- ?a /\ _ => assert (S : a) by (eapply settled_load; [exact no_props_ok|exact N|exact C|exact P]) end. split; [exact S|]. split; [vm_compute; reflexivity|]. split; [vm_compute; reflexivity|]. split; [vm_compute; reflexivity|]. split; [vm_compute; reflexivity|].
  split; [eapply (exec_settled_spec [ODetach 4; OAttach 0 4; OAnnotateSpan (e_with_span (e_attr ET_Entity [A_Class "org"; A_Set "ents"]) ["w.1"%string])]); [exact S|vm_compute; reflexivity]|].
  split; [vm_compute; reflexivity|]. split; vm_compute; reflexivity.
Qed.

(* ---------------------------------------------------------------- where the claim fails *)
Definition stale (d : document) (k : nat) : bool :=
  negb (is_nil (refs_of d k)) && forallb (fun w => negb (refersb d w k) || negb (is_some (parent_of d w))) (seq 0 (length (st_items (doc_elements d)))).
Lemma stale_spec d k : stale d k = true -> ~ spans_linked d.
Proof.
  intros H (_ & L). apply andb_prop in H. destruct H as (H1 & H2). unfold refs_of in H1. destruct (get_elementdata d k) as [e|] eqn:G; [|discriminate]. destruct (L k e G) as (ws & _ & WS & F). destruct (span_refs e) as [|s r]; [discriminate|].
  inversion F as [|w s' ws' r' N F']; subst. destruct (proj1 (WS w) (or_introl eq_refl)) as (R & P). rewrite forallb_forall in H2. pose proof R as (x & id & GX & _). assert (LT : w < st_len (doc_elements d)) by (unfold get_elementdata in GX; apply st_get_lt in GX; exact GX).
  specialize (H2 w). rewrite (proj2 (refersb_spec d w k) R) in H2. destruct (parent_of d w); [|congruence]. cbn in H2. discriminate H2. apply in_seq. unfold st_len in LT. lia.
Qed.
Lemma unlisted_spec d w k : refersb d w k && is_some (parent_of d w) && is_some (get_elementdata d k) && is_nil (refs_of d k) = true -> ~ spans_linked d.
Proof.
  intros H (_ & L). apply andb_prop in H. destruct H as (H & H4). apply andb_prop in H. destruct H as (H & H3). apply andb_prop in H. destruct H as (H1 & H2). apply refersb_spec in H1. unfold refs_of in H4.
  destruct (get_elementdata d k) as [e|] eqn:G; [|discriminate]. destruct (L k e G) as (ws & _ & WS & F). destruct (span_refs e); [|discriminate]. inversion F; subst. apply (WS w). split; [exact H1|]. destruct (parent_of d w); [discriminate|discriminate H2].
Qed.
(* After a word reference has been taken out, its word still says that it is part of the span annotation. *)
Theorem C67_detach_refuted : exists d, tidy d /\ spans_linked d /\ exists d', careful_step d (ODetach 13) d' /\ parent_of d' 13 = None /\ refs_of d' 6 = [15] /\ ~ spans_linked d'.
Proof.
  exists ex_doc. split; [exact ex_tidy|]. split; [apply C67_spans_linked_partial, ex_settled|]. exists (fst (detach_element ex_doc 13)). split.
  - split; [exact I|]. split; [exact I|]. exists 0, (Ok tt). split; [vm_compute; reflexivity|]. split; [exact I|intros []].
  - split; [vm_compute; reflexivity|]. split; [vm_compute; reflexivity|]. apply (stale_spec _ 6). vm_compute. reflexivity.
Qed.
Print Assumptions C67_detach_refuted.
(* A word reference that is put into a span annotation with attach_element is not made known to its word. *)
Theorem C67_attach_refuted : exists d, tidy d /\ spans_linked d /\ exists d', careful_step d (OAttach 15 17) d' /\ refers d' 17 3 /\ parent_of d' 17 = Some 15 /\ refs_of d' 3 = [] /\ ~ spans_linked d'.
Proof.
  assert (S : exists d, exec_settled ex_doc [OAddElement (e_attr ET_WordReference [A_Idref "w.1"])] = Some d /\ (not_above 9 d 17 15 && match attach_element d 15 17 with
    | (d1, Ok _) => match parent_of d1 17 with Some p => Nat.eqb p 15 | None => false end && (refersb d1 17 3 && is_some (parent_of d1 17) && is_some (get_elementdata d1 3) && is_nil (refs_of d1 3)) | _ => false end) = true) by (eexists; split; vm_compute; reflexivity).
  destruct S as (d & E & P). exists d. pose proof (exec_settled_spec _ _ _ ex_settled E) as S. clear E. split; [apply settled_tidy, S|]. split; [apply C67_spans_linked_partial, S|].
  apply andb_prop in P. destruct P as (P1 & P). destruct (attach_element d 15 17) as [d1 [u|x| |]] eqn:A; try discriminate. apply andb_prop in P. destruct P as (P2 & P). exists d1. split; [|split; [|split; [|split]]].
  - split; [exact I|]. split; [split; [discriminate|apply (not_above_spec 9), P1]|]. exists 0, (Ok u). split; [exact A|]. split; [exact I|intros []].
  - apply andb_prop in P. destruct P as (P & _). apply andb_prop in P. destruct P as (P & _). apply andb_prop in P. destruct P as (P & _). apply refersb_spec, P.
  - destruct (parent_of d1 17) as [q|]; [|discriminate]. apply Nat.eqb_eq in P2. subst. reflexivity.
  - apply andb_prop in P. destruct P as (_ & P). destruct (refs_of d1 3); [reflexivity|discriminate].
  - exact (unlisted_spec _ _ _ P).
Qed.
Print Assumptions C67_attach_refuted.
(* A file that is cut off inside a span annotation is loaded; its last word reference is then in no span annotation. *)
Definition cut_events : list event := document_events [] [xa "xml:id" "d"; xa "version" "2.5.0"] ex_head [] "text" [xa "xml:id" "t.1"]
  [EvEmpty NsFolia "w" [xa "xml:id" "w.1"]; EvStart NsFolia "dependencies" []; EvStart NsFolia "dependency" [xa "class" "su"; xa "set" "deps"]; EvStart NsFolia "hd" []; EvEmpty NsFolia "wref" [xa "id" "w.1"]].
Theorem C67_cut_off_refuted : exists d, tidy d /\ parse_document fuel1 dep_oracle no_props cut_events = Ok d /\ refs_of d 1 = [3] /\ (forall s, ~ nearest_span d 5 s) /\ ~ spans_linked d.
Proof.
  eexists. match goal with |- _ /\ ?p /\ _ => assert (P : p) by (vm_compute; reflexivity) end. split; [|split; [exact P|]].
  - apply (tidy_load fuel1 dep_oracle no_props cut_events); [exact no_props_ok| |exact P]. clear P. vm_compute. repeat (constructor; [cbn; intros I'; decompose [or] I'; try discriminate; contradiction|]). constructor.
  - clear P. split; [vm_compute; reflexivity|]. match goal with |- (forall s, ~ nearest_span ?d 5 s) /\ _ => remember d as d0 eqn:E end.
    assert (P5 : parent_of d0 5 = Some 4) by (subst; vm_compute; reflexivity). assert (P4 : parent_of d0 4 = None) by (subst; vm_compute; reflexivity).
    assert (G4 : option_map (fun e => group_contains EG_Span (e_type e)) (get_elementdata d0 4) = Some false) by (subst; vm_compute; reflexivity).
    assert (G5 : exists e, get_elementdata d0 5 = Some e /\ e_type e = ET_WordReference /\ e_parent e = Some 4) by (subst; eexists; split; [vm_compute; reflexivity|split; reflexivity]). clear E.
    assert (N : forall s, ~ nearest_span d0 5 s).
    { intros s Q. inversion Q as [x y P (e & G & B)|x q y P B Q']; subst; rewrite P5 in P; injection P as <-; [rewrite G in G4; cbn [option_map] in G4; congruence|]. inversion Q' as [x y P (e & G & B')|x q y P B' Q'']; subst; congruence. }
    split; [exact N|]. intros (L & _). destruct G5 as (e & G & T & PA). destruct (L 5 e G T) as (k & s & _ & _ & NS); [congruence|]. exact (N s NS).
Qed.
Print Assumptions C67_cut_off_refuted.
