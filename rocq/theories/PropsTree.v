(* C54: writing a document as XML and loading it again gives the same tree. *)
From Coq Require Import String List Bool Arith NArith Lia.
From Verif Require Import Base BaseFacts Types TypesFacts SpecTable Attrib AttribFacts Element Store StoreFacts Metadata Document Select DocOps Xml Parser Serialiser History Spec
  FrameFacts InvFacts DocFacts Examples StoreThms InternFacts EncodeFacts PropsEncode LinkFacts TreeFacts ForestFacts SelSpec SelectFacts PropsLinks PropsQuery SerSpec PropsSer ParseSpec ParseFacts PropsParse PropsProv
  RoundFacts RoundProv RoundSpec RoundTree PropsRound.
Import ListNotations.
Open Scope string_scope.
Open Scope list_scope.

(* ---------------------------------------------------------------- C54: the tree *)
(* every attribute has a value that the attribute parser gives back (no date out of range and so on) *)
Definition values_in_range (O : oracle) (d : document) : Prop := forall k e a, get_elementdata d k = Some e -> In a (e_attribs e) -> attr_in_range O a.
(* The loaded document has exactly the elements written, in the same order and nesting, with the same types, texts and
   comments, and each reports the attribute values of the element it was written from. Missing for the full claim: content
   that is not writable (refuted below), sets and processors that the tag does not show (see the theorem about references
   in PropsRefs), and layers whose tag shows no set, class, subset or processor, which keep their plain attributes only if
   they take no set from their content (C54_layer_id_refuted). *)
Theorem C54_tree_round_trip_partial : forall fuel fuel' O p d root e w indent d',
  tidy d -> get_elementdata d root = Some e -> (e_parent e <> None \/ root = 0) -> writable_doc d -> values_in_range O d -> props_ok normal p ->
  doc_xml fuel O d root = Ok w -> parse_document fuel' O p (reread indent w) = Ok d' ->
  exists n, same_tree (same_attributes d d') d d' None root 0 n /\ length (st_items (doc_elements d')) = n.
Proof.
  intros fuel fuel' O p d root e w indent d' T G P WD VR GP W L.
  assert (F : full_ok d) by apply reachable_full, tidy_reachable, T.
  assert (F' : full_ok d') by (eapply reachable_full, reach_load; [exact GP|apply load_ok_normal|exact L]).
  assert (X : exists m body, w_metadata fuel d = Ok m /\ xml_of O d true root body /\ exists d1 d2 r2, loading indent fuel' O p (doc_id d) (m ++ body ++ [wnl; WEnd "FoLiA"]) d' d1 d2 r2).
  { destruct (C52_xml_is_tree_partial O d root e T G P) as (l & X & FX & _). unfold doc_xml in W. apply rbind_ok in W. destruct W as (m & M & W). apply rbind_ok in W. destruct W as (b & B & W). injection W as <-.
    unfold element_xml in FX. destruct (FX fuel) as [Q|Q]; rewrite B in Q; [discriminate|]. injection Q as ->. exists m, l. split; [exact M|]. split; [exact X|]. eapply load_parts, L. }
  destruct X as (m & body & M & X & d1 & d2 & r2 & LD).
  destruct (saved_body _ _ _ _ _ _ _ _ _ _ _ _ _ _ T G WD M X LD) as (a & inside & ev & ks & after & x & d3 & d4 & k & [TA XE NO _ FU ND PA BT ST AP PE]).
  destruct (tree_built _ _ _ _ _ _ _ _ _ _ _ _ _ _ _ GP FU XE ND PA ST AP PE) as (feats & content & n & RA & KA & _ & (e' & G' & TY & PR & CO) & MD & LN).
  exists (S n). split; [|exact LN].
  assert (HG : forall p c e a own feats k' e', get_elementdata d c = Some e -> tag_attributes O d e a -> reads_attributes O (e_type e) (read_attrs [] a) own feats ->
    (fun (_ : nat) t own k => keeps_attributes d' t own k /\ keeps_processor d' t own k) p (e_type e) own k' -> get_elementdata d' k' = Some e' -> e_type e' = e_type e -> feats = [] /\ same_attributes d d' e e').
  { intros p0 c e0 a0 own fs k' e0' G0 TA0 RA0 (KA0 & _) G0' TY0. assert (VR0 : forall y, In y (e_attribs e0) -> attr_in_range O y) by (intros y Y; eapply VR; eassumption).
    split; [apply (ow_feats _ _ _ _ (own_read O d c e0 a0 own fs F G0 TA0 VR0 RA0))|]. eapply (attributes_same O d d' c e0 a0 own fs k' e0'); eassumption. }
  destruct (same_made O d d' _ (same_attributes d d') HG _ _ _ NO _ _ _ MD) as (SC & _).
  econstructor; [exact G|exact G'|exact TY|exact PR| |rewrite CO; exact SC].
  eapply (attributes_same O d d' root e a (fst x) feats 0 e'); try eassumption. intros y Y. eapply VR; eassumption.
Qed.
Print Assumptions C54_tree_round_trip_partial.

(* ---------------------------------------------------------------- examples *)
Definition all_elements (d : document) (P : elementdata -> bool) : bool := forallb (fun o => match o with Some e => P e | None => true end) (st_items (doc_elements d)).
Lemma all_elements_spec d P : all_elements d P = true -> forall k e, get_elementdata d k = Some e -> P e = true.
Proof.
  unfold all_elements. rewrite forallb_forall. intros H k e G. unfold get_elementdata, st_get in G. destruct (nth_error (st_items (doc_elements d)) k) as [o|] eqn:N; [|discriminate]. cbn in G. subst o. apply (H (Some e)). eapply nth_error_In, N.
Qed.
Fixpoint writableb (d : document) (free : bool) (l : list datatype) : bool :=
  match l with
  | [] => true
  | DText s :: r => free && negb (is_blank s) && writableb d false r
  | DComment s :: r => String.eqb (escape s) s && negb (is_blank s) && writableb d true r
  | DElement c :: r => writableb d (text_after d c) r
  | _ :: r => writableb d free r
  end.
Lemma writableb_spec d l : forall free, writableb d free l = true -> writable d free l.
Proof.
  induction l as [|[s|c|s|s|s] l IH]; intros free H; cbn [writableb writable] in *; auto.
  - apply andb_prop in H. destruct H as (H & C). apply andb_prop in H. destruct H as (A & B). split; [exact A|]. split; [apply not_blank_iff, negb_true_iff, B|apply IH, C].
  - apply andb_prop in H. destruct H as (H & C). apply andb_prop in H. destruct H as (A & B). split; [apply String.eqb_eq, A|]. split; [apply not_blank_iff, negb_true_iff, B|apply IH, C].
Qed.
Definition in_rangeb (O : oracle) (a : Attribute) : bool :=
  match a with
  | A_Offset n | A_LineNr n => N.leb n u16_max
  | A_DateTime d => dt_valid d
  | A_Confidence f => match f64_parse O (f64_print O f) with Some g => N.eqb g f | None => false end
  | _ => true
  end.
Lemma in_rangeb_spec O a : in_rangeb O a = true -> attr_in_range O a.
Proof. destruct a; cbn; auto; try (intros H; apply N.leb_le, H). destruct (f64_parse O _) as [g|]; [|discriminate]. intros H. apply N.eqb_eq in H. congruence. Qed.
(* [loads_back d d' i]: d' is what loading d gives, written with the given indentation *)
Definition loads_back (i : nat) (d d' : document) : Prop :=
  exists fuel w, doc_xml fuel rt_oracle d 0 = Ok w /\ parse_document fuel rt_oracle no_props (reread i w) = Ok d'.
Lemma tree_case i ops (P : document -> document -> bool) :
  match exec_careful fuel1 ex_doc ops with
  | Some d => match round_trip i d with
              | Some d' => all_elements d (fun e => forallb (in_rangeb rt_oracle) (e_attribs e)) && P d d'
              | None => false end
  | None => false end = true ->
  exists d d', tidy d /\ values_in_range rt_oracle d /\ loads_back i d d' /\ P d d' = true.
Proof.
  destruct (exec_careful fuel1 ex_doc ops) as [d|] eqn:E; [|discriminate]. destruct (round_trip i d) as [d'|] eqn:R; [|discriminate]. intros H. apply andb_prop in H. destruct H as (A & B).
  exists d, d'. split; [eapply exec_tidy; [exact ex_tidy|exact E]|]. split; [|split; [|exact B]].
  - intros k e a G I'. pose proof (all_elements_spec _ _ A _ _ G) as Q. cbn beta in Q. rewrite forallb_forall in Q. apply in_rangeb_spec, Q, I'.
  - unfold round_trip in R. destruct (doc_xml fuel1 rt_oracle d 0) as [w| | |] eqn:W; try discriminate. destruct (parse_document fuel1 rt_oracle no_props (reread i w)) as [d0| | |] eqn:L; try discriminate. injection R as ->.
    exists fuel1, w. auto.
Qed.
(* the example document, with a word that holds a comment added, is writable; 19 elements come back *)
Example C54_nonvacuous : exists d d', tidy d /\ writable_doc d /\ values_in_range rt_oracle d /\ loads_back 2 d d' /\ props_ok normal no_props /\
  length (st_items (doc_elements d')) = 19 /\ exists e, get_elementdata d 0 = Some e.
Proof.
  destruct (tree_case 2 [OAddElementTo 10 (mkElem ET_Word [A_Id "w.4"; A_Class "PUNCT"] [DComment " a full stop "; DAddElement (mkElem ET_TextContent [] [DText "."] None None)] None None)]
    (fun d d' => all_elements d (fun e => writableb d (text_first (e_type e)) (e_data e)) && Nat.eqb (length (st_items (doc_elements d'))) 19 && is_some (get_elementdata d 0))) as (d & d' & T & V & L & P); [vm_compute; reflexivity|].
  apply andb_prop in P. destruct P as (P & P3). apply andb_prop in P. destruct P as (P1 & P2). exists d, d'. split; [exact T|]. split; [|split; [exact V|]; split; [exact L|]; split; [|split; [apply Nat.eqb_eq, P2|]]].
  - intros k e G. apply writableb_spec. apply (all_elements_spec _ _ P1 _ _ G).
  - apply props_okb_spec. vm_compute. reflexivity.
  - destruct (get_elementdata d 0) as [e|]; [eauto|discriminate].
Qed.
(* What is not writable is not read back as it was. *)
Definition content_by_id (d : document) (id : string) : option (list datatype) :=
  match get_element_key_by_id d id with
  | Some k => match get_elementdata d k with Some e => Some (content e) | None => None end
  | None => None
  end.
Definition data_eqb (a b : datatype) : bool :=
  match a, b with DText x, DText y | DComment x, DComment y => String.eqb x y | _, _ => false end.
Fixpoint datas_eqb (a b : list datatype) : bool :=
  match a, b with [], [] => true | x :: a', y :: b' => data_eqb x y && datas_eqb a' b' | _, _ => false end.
Lemma datas_eqb_spec a : forall b, datas_eqb a b = true -> a = b.
Proof.
  induction a as [|x a IH]; intros [|y b] H; try discriminate; [reflexivity|]. cbn in H. apply andb_prop in H. destruct H as (X & Y). f_equal; [|apply IH, Y].
  destruct x, y; try discriminate X; cbn in X; apply String.eqb_eq in X; congruence.
Qed.
Definition has_content (d : document) (id : string) (l : list datatype) : bool := match content_by_id d id with Some x => datas_eqb x l | None => false end.
Lemma has_content_spec d id l : has_content d id l = true -> content_by_id d id = Some l.
Proof. unfold has_content. destruct (content_by_id d id) as [x|]; [|discriminate]. intros H. f_equal. apply datas_eqb_spec, H. Qed.
Lemma content_case i ops id l l' : match exec_careful fuel1 ex_doc ops with
  | Some d => match round_trip i d with
              | Some d' => all_elements d (fun e => forallb (in_rangeb rt_oracle) (e_attribs e)) && (has_content d id l && has_content d' id l')
              | None => false end
  | None => false end = true ->
  exists d d', tidy d /\ values_in_range rt_oracle d /\ loads_back i d d' /\ content_by_id d id = Some l /\ content_by_id d' id = Some l'.
Proof.
  intros H. apply (tree_case i ops (fun d d' => has_content d id l && has_content d' id l')) in H. destruct H as (d & d' & T & V & L & P). apply andb_prop in P. destruct P as (P1 & P2).
  exists d, d'. auto 8 using has_content_spec.
Qed.
(* the text of a description gains a line break *)
Theorem C54_description_refuted : exists d d', tidy d /\ values_in_range rt_oracle d /\ loads_back 0 d d' /\
  content_by_id d "d.1" = Some [DText "a note"] /\ content_by_id d' "d.1" = Some [DText (nl ++ "a note")].
Proof. apply (content_case 0 [OAddElementTo 10 (mkElem ET_Description [A_Id "d.1"] [DText "a note"] None None)]). vm_compute. reflexivity. Qed.
Print Assumptions C54_description_refuted.
(* text of white space disappears *)
Theorem C54_blank_text_refuted : exists d d', tidy d /\ values_in_range rt_oracle d /\ loads_back 0 d d' /\
  content_by_id d "t.9" = Some [DText " "] /\ content_by_id d' "t.9" = Some [].
Proof. apply (content_case 0 [OAddElementTo 10 (mkElem ET_TextContent [A_Id "t.9"] [DText " "] None None)]). vm_compute. reflexivity. Qed.
Print Assumptions C54_blank_text_refuted.
(* two texts become one *)
Theorem C54_adjacent_texts_refuted : exists d d', tidy d /\ values_in_range rt_oracle d /\ loads_back 0 d d' /\
  content_by_id d "t.9" = Some [DText "to "; DText "be"] /\ content_by_id d' "t.9" = Some [DText "to be"].
Proof. apply (content_case 0 [OAddElementTo 10 (mkElem ET_TextContent [A_Id "t.9"] [DText "to "; DText "be"] None None)]). vm_compute. reflexivity. Qed.
Print Assumptions C54_adjacent_texts_refuted.
(* a comment comes back with an entity in it *)
Theorem C54_comment_refuted : exists d d', tidy d /\ values_in_range rt_oracle d /\ loads_back 0 d d' /\
  content_by_id d "s.9" = Some [DComment "a < b"] /\ content_by_id d' "s.9" = Some [DComment "a &lt; b"].
Proof. apply (content_case 0 [OAddElementTo 11 (mkElem ET_Sentence [A_Id "s.9"] [DComment "a < b"] None None)]). vm_compute. reflexivity. Qed.
Print Assumptions C54_comment_refuted.
(* an element whose tag shows nothing of its set, because that is the only set declared for its type, loses it unless it
   has a class or a processor to show *)
Definition set_by_id (d : document) (id : string) : res (option string) :=
  match get_element_key_by_id d id with
  | Some k => match get_elementdata d k with Some e => r_set d e | None => Panic end
  | None => Panic
  end.
Definition set_is (d : document) (id : string) (s : option string) : bool :=
  match set_by_id d id, s with Ok (Some x), Some y => String.eqb x y | Ok None, None => true | _, _ => false end.
Lemma set_is_spec d id s : set_is d id s = true -> set_by_id d id = Ok s.
Proof. unfold set_is. destruct (set_by_id d id) as [[x|]| | |], s as [y|]; try discriminate; [intros H; apply String.eqb_eq in H; congruence|reflexivity]. Qed.
Theorem C54_default_set_refuted : exists d d' s, tidy d /\ values_in_range rt_oracle d /\ loads_back 0 d d' /\ set_by_id d "w.9" = Ok (Some s) /\ set_by_id d' "w.9" = Ok None.
Proof.
  destruct (tree_case 0 [OAddElementTo 10 (mkElem ET_Word [A_Id "w.9"; A_Set "tokset"] [] None None)] (fun d d' => set_is d "w.9" (Some "tokset") && set_is d' "w.9" None)) as (d & d' & T & V & L & P); [vm_compute; reflexivity|].
  apply andb_prop in P. destruct P as (P1 & P2). exists d, d', "tokset". auto 8 using set_is_spec.
Qed.
Print Assumptions C54_default_set_refuted.
(* a document in which a span refers to a word further on is written, but the file cannot be loaded *)
Lemma unloadable_case ops : match exec_careful fuel1 ex_doc ops with
  | Some d => all_elements d (fun e => forallb (in_rangeb rt_oracle) (e_attribs e)) && all_elements d (fun e => writableb d (text_first (e_type e)) (e_data e))
  | None => false end = true ->
  (forall fuel, match exec_careful fuel1 ex_doc ops with
   | Some d => match doc_xml fuel1 rt_oracle d 0 with Ok w => match parse_document fuel rt_oracle no_props (reread 2 w) with Err _ => true | _ => false end | _ => false end
   | None => false end = true) ->
  exists d w, tidy d /\ writable_doc d /\ values_in_range rt_oracle d /\ doc_xml fuel1 rt_oracle d 0 = Ok w /\ forall fuel, exists x, parse_document fuel rt_oracle no_props (reread 2 w) = Err x.
Proof.
  destruct (exec_careful fuel1 ex_doc ops) as [d|] eqn:E; [|discriminate]. intros H F. apply andb_prop in H. destruct H as (A & B).
  destruct (doc_xml fuel1 rt_oracle d 0) as [w| | |] eqn:W; try (discriminate (F 0)). exists d, w.
  split; [eapply exec_tidy; [exact ex_tidy|exact E]|]. split; [intros k e G; apply writableb_spec; apply (all_elements_spec _ _ B _ _ G)|]. split.
  - intros k e a G I'. pose proof (all_elements_spec _ _ A _ _ G) as Q. cbn beta in Q. rewrite forallb_forall in Q. apply in_rangeb_spec, Q, I'.
  - split; [exact W|]. intros fuel. specialize (F fuel). destruct (parse_document fuel _ _ _) as [|x| |]; try discriminate. eauto.
Qed.
Theorem C54_forward_reference_refuted : exists d w, tidy d /\ writable_doc d /\ values_in_range rt_oracle d /\ doc_xml fuel1 rt_oracle d 0 = Ok w /\
  forall fuel, exists x, parse_document fuel rt_oracle no_props (reread 2 w) = Err x.
Proof.
  apply (unloadable_case [OAddElementTo 11 (mkElem ET_Sentence [A_Id "s.2"] [DAddElement (mkElem ET_Word [A_Id "w.9"] [] None None)] None None);
                          OAddElementTo 15 (mkElem ET_WordReference [A_Idref "w.9"] [] None None)]); [vm_compute; reflexivity|intros fuel; vm_compute; reflexivity].
Qed.
Print Assumptions C54_forward_reference_refuted.
