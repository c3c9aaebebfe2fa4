(* Properties C42-C46: type tables, names, attributes *)
From Coq Require Import String Ascii List Bool Arith NArith Lia.
From Verif Require Import Base BaseFacts Types TypesFacts SpecTable Attrib AttribFacts Element Store Metadata Document
  Select Xml Parser Serialiser Examples.
Import ListNotations.
Open Scope list_scope.

(* ------------------------------------------------------------------ C42 *)
Theorem C42_tag_parses_back : forall t, et_from_str (et_as_str t) = Some t.
Proof. exact et_from_as. Qed.
Print Assumptions C42_tag_parses_back.

Theorem C42_only_own_tag : forall s t, et_from_str s = Some t -> s = et_as_str t.
Proof. exact et_from_only. Qed.
Print Assumptions C42_only_own_tag.

Theorem C42_other_tags_rejected : forall s, et_from_str s = None <-> forall t, s <> et_as_str t.
Proof.
  intros s. split.
  - intros H t ->. rewrite et_from_as in H. discriminate.
  - intros H. destruct (et_from_str s) as [t|] eqn:E; [|reflexivity]. destruct (H t (et_from_only _ _ E)).
Qed.
Print Assumptions C42_other_tags_rejected.

(* the tag in the specification table is the tag of the type, except for the typed features, which
   have none there *)
Theorem C42_tag_is_specified : forall t, p_xmltag (props t) <> ""%string -> et_as_str t = p_xmltag (props t).
Proof.
  intros t. assert (H : (String.eqb (p_xmltag (props t)) "" || String.eqb (et_as_str t) (p_xmltag (props t)))%bool = true)
    by (destruct t; vm_compute; reflexivity).
  apply orb_true_iff in H. destruct H as [H|H]; apply String.eqb_eq in H; [congruence|auto].
Qed.
Print Assumptions C42_tag_is_specified.

Example C42_nonvacuous : et_as_str ET_Word = "w"%string /\ et_from_str "w" = Some ET_Word /\
  et_from_str "W" = None /\ et_from_str "w " = None /\ et_from_str "text" = Some ET_Text.
Proof. vm_compute. repeat split. Qed.

(* ------------------------------------------------------------------ C43 *)
Theorem C43_name_parses_back : forall t, at_from_str (at_as_str t) = Some t.
Proof. exact at_from_as. Qed.
Print Assumptions C43_name_parses_back.

Theorem C43_other_names_rejected : forall s t, at_from_str s = Some t <-> s = at_as_str t.
Proof. intros s t. split; [apply at_from_only|intros ->; apply at_from_as]. Qed.
Print Assumptions C43_other_names_rejected.

Lemma split_dash_some s x y : split_dash s = Some (x, y) -> s = (x ++ y)%string /\ str_contains_char "-" x = false.
Proof.
  revert x y. induction s as [|a s IH]; intros x y H; [discriminate|]. cbn [split_dash] in H.
  destruct (Ascii.eqb a "-") eqn:E.
  - inversion H; subst. split; reflexivity.
  - destruct (split_dash s) as [[x' y']|]; [|discriminate]. inversion H; subst.
    destruct (IH x' y eq_refl) as [-> C]. split; [reflexivity|]. cbn [str_contains_char].
    rewrite E. exact C.
Qed.
Lemma split_dash_app x r : str_contains_char "-" x = false ->
  split_dash (x ++ String "-" r) = Some (x, String "-" r).
Proof.
  induction x as [|a x IH]; intros H; [reflexivity|]. cbn [append split_dash str_contains_char] in *.
  destruct (Ascii.eqb a "-") eqn:E; [discriminate|]. rewrite (IH H). reflexivity.
Qed.

Theorem C43_declaration_tag : forall tag t,
  get_declaration_type tag = Ok t <-> tag = (at_as_str t ++ "-annotation")%string.
Proof.
  intros tag t. unfold get_declaration_type. split.
  - destruct (split_dash tag) as [[x y]|] eqn:S; [|discriminate]. destruct (split_dash_some _ _ _ S) as [-> _].
    destruct (String.eqb y "-annotation") eqn:E; [|discriminate]. apply String.eqb_eq in E. subst y.
    destruct (at_from_str x) as [u|] eqn:F; [|discriminate]. intros H. inversion H; subst.
    rewrite (at_from_only _ _ F). reflexivity.
  - intros ->. rewrite split_dash_app by apply at_no_dash. rewrite String.eqb_refl, at_from_as. reflexivity.
Qed.
Print Assumptions C43_declaration_tag.

Theorem C43_other_tags_rejected : forall tag, (forall t, tag <> (at_as_str t ++ "-annotation")%string) ->
  get_declaration_type tag = Err EParse.
Proof.
  intros tag H. destruct (get_declaration_type tag) eqn:E; try (unfold get_declaration_type in E;
    destruct (split_dash tag) as [[x y]|]; [|congruence]; destruct (String.eqb y _); [|congruence];
    destruct (at_from_str x); cbn in E; congruence).
  apply C43_declaration_tag in E. destruct (H _ E).
Qed.
Print Assumptions C43_other_tags_rejected.

(* every start tag the serialiser writes for a declaration is recognised as the type of that declaration *)
Theorem C43_written_tag_recognised : forall d dec evs, w_declaration d dec = Ok evs ->
  exists tag attrs rest, (evs = WStart tag attrs :: rest \/ evs = WEmpty tag attrs :: rest) /\
    get_declaration_type tag = Ok (d_type dec).
Proof.
  intros d dec evs H. unfold w_declaration in H. destruct (d_processors dec) as [|p ps].
  - inversion H; subst. eexists _, _, _. split; [right; reflexivity|]. apply C43_declaration_tag. reflexivity.
  - destruct (w_annotators d (p :: ps)) as [x| | |]; try discriminate. cbn [rbind] in H. inversion H; subst.
    eexists _, _, _. split; [left; reflexivity|]. apply C43_declaration_tag. reflexivity.
Qed.
Print Assumptions C43_written_tag_recognised.

Example C43_nonvacuous : get_declaration_type "pos-annotation" = Ok AT_POS /\
  get_declaration_type "pos-annotation-x" = Err EParse /\ get_declaration_type "pos" = Err EParse /\
  get_declaration_type "-annotation" = Err EParse /\
  exists evs, w_declaration ex_new (d_new AT_POS (Some "s"%string) None None) = Ok evs.
Proof. vm_compute. repeat split. eexists. reflexivity. Qed.

(* ------------------------------------------------------------------ C44 *)
Theorem C44_annotationtype_is_specified : forall t, et_annotationtype t = p_annotationtype (props t).
Proof. intros t. destruct t; vm_compute; reflexivity. Qed.
Print Assumptions C44_annotationtype_is_specified.

Theorem C44_elementtype_has_type : forall a, et_annotationtype (at_elementtype a) = Some a.
Proof. intros a. destruct a; vm_compute; reflexivity. Qed.
Print Assumptions C44_elementtype_has_type.

(* ... it is the primary element except for two annotation types *)
Theorem C44_elementtype_primary_partial : forall a, a <> AT_HYPHENATION -> a <> AT_HSPACE ->
  p_primaryelement (props (at_elementtype a)) = true.
Proof. intros a H1 H2. destruct a; try congruence; vm_compute; reflexivity. Qed.
Print Assumptions C44_elementtype_primary_partial.

Theorem C44_elementtype_primary_refuted : exists a, p_primaryelement (props (at_elementtype a)) = false.
Proof. exists AT_HYPHENATION. vm_compute. reflexivity. Qed.
Print Assumptions C44_elementtype_primary_refuted.

Theorem C44_layertype_is_layer : forall a l, at_layertype a = Some l -> In l (group_elementtypes EG_Layer).
Proof. intros a l H. apply group_contains_In. destruct a; inversion H; subst; vm_compute; reflexivity. Qed.
Print Assumptions C44_layertype_is_layer.

Theorem C44_layertype_same_type_partial : forall a l, a <> AT_PREDICATE -> at_layertype a = Some l ->
  et_annotationtype l = Some a.
Proof. intros a l N H. destruct a; inversion H; subst; try congruence; vm_compute; reflexivity. Qed.
Print Assumptions C44_layertype_same_type_partial.

Theorem C44_layertype_same_type_refuted : exists a l, at_layertype a = Some l /\ et_annotationtype l <> Some a.
Proof. exists AT_PREDICATE, ET_SemanticRolesLayer. split; [reflexivity|]. vm_compute. discriminate. Qed.
Print Assumptions C44_layertype_same_type_refuted.

(* acceptance as the specification table lists it *)
Definition accepted_in (parent child : ElementType) : Prop :=
  In (AcceptElementType child) (p_accepted_data (props parent)) \/
  exists g, In (AcceptElementGroup g) (p_accepted_data (props parent)) /\ In child (group_elementtypes g).

Lemma accepts_type_spec parent child :
  existsb (accepts_type child) (p_accepted_data (props parent)) = true <-> accepted_in parent child.
Proof.
  rewrite existsb_exists. split.
  - intros ([t|g] & I & A); cbn in A.
    + destruct (et_eqb_spec t child); [subst; left; exact I|discriminate].
    + right. exists g. split; [exact I|]. apply group_contains_In. exact A.
  - intros [I|(g & I & G)].
    + eexists. split; [exact I|]. apply et_eqb_refl.
    + eexists. split; [exact I|]. apply group_contains_In. exact G.
Qed.

Theorem C44_span_has_accepting_layer : forall t, In t (group_elementtypes EG_Span) ->
  exists a l, et_annotationtype t = Some a /\ at_layertype a = Some l /\ accepted_in l t.
Proof.
  intros t H. apply group_contains_In in H.
  assert (X : (negb (group_contains EG_Span t) ||
    match et_annotationtype t with
    | Some a => match at_layertype a with Some l => existsb (accepts_type t) (p_accepted_data (props l)) | None => false end
    | None => false end)%bool = true) by (destruct t; vm_compute; reflexivity).
  rewrite H in X. cbn [negb orb] in X. destruct (et_annotationtype t) as [a|]; [|discriminate].
  destruct (at_layertype a) as [l|] eqn:L; [|discriminate]. exists a, l. repeat split; auto. apply accepts_type_spec. exact X.
Qed.
Print Assumptions C44_span_has_accepting_layer.

(* and every layer is the layer of the annotation type it has *)
Theorem C44_layer_of_own_type : forall l, In l (group_elementtypes EG_Layer) ->
  exists a, et_annotationtype l = Some a /\ at_layertype a = Some l.
Proof.
  intros l H. apply group_contains_In in H. destruct l; try discriminate H; vm_compute; eexists; split; reflexivity.
Qed.
Print Assumptions C44_layer_of_own_type.

Example C44_nonvacuous : In ET_Entity (group_elementtypes EG_Span) /\ at_layertype AT_ENTITY = Some ET_EntitiesLayer /\
  accepted_in ET_EntitiesLayer ET_Entity /\ In ET_EntitiesLayer (group_elementtypes EG_Layer) /\ AT_ENTITY <> AT_PREDICATE.
Proof.
  repeat split; try (apply group_contains_In; vm_compute; reflexivity); try reflexivity; try discriminate.
  apply accepts_type_spec. vm_compute. reflexivity.
Qed.

(* ------------------------------------------------------------------ C45 *)
Theorem C45_print_parse : forall O a s, attr_in_range O a -> a_display O a = Ok s ->
  parse_attrib O (ab_as_str (attribtype a)) (Some s) = Ok a.
Proof. exact attr_round. Qed.
Print Assumptions C45_print_parse.

(* everything can be printed, except the marker for ignored attributes and encoded references *)
Theorem C45_printable : forall O a, (exists s, a_display O a = Ok s) <->
  match a with
  | A_Ignore | A_DeclarationRef _ | A_ClassRef _ | A_ProcessorRef _ | A_SubsetRef _ => False
  | _ => True
  end.
Proof.
  intros O a. split.
  - intros [s H]. destruct a; cbn in H; try discriminate; exact I.
  - intros H. apply display_ok; destruct a; try discriminate; try reflexivity; destruct H.
Qed.
Print Assumptions C45_printable.

(* the attribute names the parser knows *)
Definition known_attributes : list string :=
  ["xml:id"; "set"; "class"; "processor"; "annotator"; "annotatortype"; "subset"; "format"; "xlink:href"; "xlink:type";
   "speaker"; "src"; "n"; "t"; "datetime"; "begintime"; "endtime"; "textclass"; "metadata"; "id"; "type"; "auth";
   "original"; "pagenr"; "offset"; "linenr"; "newpage"; "ref"; "confidence"; "space"; "typegroup"]%string.

Lemma str_match_none {A} (l : list (string * A)) k : str_match l k = None <-> ~ In k (map fst l).
Proof.
  induction l as [|[x v] l IH]; cbn [str_match map fst In]; [tauto|]. destruct (String.eqb_spec k x) as [->|N].
  - split; [discriminate|tauto].
  - rewrite IH. split; [intros H [E|I]; [congruence|exact (H I)]|intros H I; apply H; right; exact I].
Qed.
Lemma parsers_names O : map fst (attrib_parsers O) = known_attributes.
Proof. reflexivity. Qed.

Theorem C45_unknown_names : forall O name v, ~ In name known_attributes ->
  (str_contains_char ":" name = true -> parse_attrib O name (Some v) = Ok A_Ignore) /\
  (str_contains_char ":" name = false -> parse_attrib O name (Some v) = Err EParse).
Proof.
  intros O name v H. unfold parse_attrib. rewrite <- (parsers_names O) in H. apply str_match_none in H. rewrite H.
  split; intros ->; reflexivity.
Qed.
Print Assumptions C45_unknown_names.

(* an attribute is only ever read from its own name, and reading never panics *)
Theorem C45_own_name : forall O name v a, parse_attrib O name v = Ok a -> a <> A_Ignore ->
  name = ab_as_str (attribtype a).
Proof.
  intros O name v a H N. unfold parse_attrib in H. destruct v as [v|]; [|discriminate].
  destruct (str_match (attrib_parsers O) name) as [f|] eqn:M.
  2:{ destruct (str_contains_char ":" name); inversion H; subst; congruence. }
  apply str_match_in in M. unfold attrib_parsers in M. cbn [In] in M.
  repeat (destruct M as [E|M];
    [inversion E; subst; clear E; unfold parse_annotatortype, parse_yes_no in H;
     repeat match type of H with
            | (if ?b then _ else _) = _ => destruct b
            | (match ?b with Some _ => _ | None => _ end) = _ => destruct b
            end; try discriminate; inversion H; subst; try reflexivity; congruence|]).
  destruct M.
Qed.
Print Assumptions C45_own_name.

Theorem C45_parse_never_panics : forall O name v, (exists a, parse_attrib O name v = Ok a) \/ parse_attrib O name v = Err EParse.
Proof.
  intros O name v. unfold parse_attrib. destruct v as [v|]; [|auto].
  destruct (str_match (attrib_parsers O) name) as [f|] eqn:M; [|destruct (str_contains_char ":" name); eauto].
  apply str_match_in in M. unfold attrib_parsers in M. cbn [In] in M.
  repeat (destruct M as [E|M];
    [inversion E; subst; clear E; unfold parse_annotatortype, parse_yes_no;
     repeat match goal with
            | |- context [if ?b then _ else _] => destruct b
            | |- context [match ?b with Some _ => _ | None => _ end] => destruct b
            end; eauto|]).
  destruct M.
Qed.
Print Assumptions C45_parse_never_panics.

Example C45_nonvacuous :
  let O := mkOracle (fun _ => None) (fun _ => ""%string) in
  parse_attrib O (ab_as_str (attribtype (A_Offset 65535))) (Some "65535"%string) = Ok (A_Offset 65535) /\
  parse_attrib O "offset" (Some "65536"%string) = Err EParse /\
  parse_attrib O "tag" (Some "x"%string) = Err EParse /\ parse_attrib O "alien:tag" (Some "x"%string) = Ok A_Ignore /\
  a_display O (A_DateTime (mkDT 2019 2 28 23 59 59)) = Ok "2019-02-28T23:59:59"%string /\
  attr_in_range O (A_DateTime (mkDT 2019 2 28 23 59 59)) /\ ~ In "tag"%string known_attributes.
Proof.
  vm_compute. repeat split. intros H. repeat (destruct H as [H|H]; [discriminate H|]). exact H.
Qed.

(* ------------------------------------------------------------------ C46 *)
Definition of_type (t : AttribType) (a : Attribute) : bool := ab_eqb (attribtype a) t.


Lemma filter_none {A} (f : A -> bool) l : (forall x, In x l -> f x = false) -> filter f l = [].
Proof. induction l as [|a l IH]; intros H; [reflexivity|]. cbn. rewrite (H a (or_introl eq_refl)). apply IH. intros x I. apply H. right. exact I. Qed.
Lemma filter_all {A} (f : A -> bool) l : (forall x, In x l -> f x = true) -> filter f l = l.
Proof. induction l as [|a l IH]; intros H; [reflexivity|]. cbn. rewrite (H a (or_introl eq_refl)). f_equal. apply IH. intros x I. apply H. right. exact I. Qed.
Lemma of_type_false t a : of_type t a = false <-> attribtype a <> t.
Proof. unfold of_type. destruct (ab_eqb_spec (attribtype a) t); split; congruence. Qed.
Lemma of_type_true t a : of_type t a = true <-> attribtype a = t.
Proof. unfold of_type. destruct (ab_eqb_spec (attribtype a) t); split; congruence. Qed.

(* del_attrib returns the first attribute of the type and removes exactly that one *)
Theorem C46_del_attrib : forall l t,
  (exists a before after, l = before ++ a :: after /\ attribtype a = t /\
     (forall b, In b before -> attribtype b <> t) /\ del_attrib l t = (before ++ after, Some a)) \/
  ((forall b, In b l -> attribtype b <> t) /\ del_attrib l t = (l, None)).
Proof.
  intros l t. pose proof (del_attrib_spec l t) as H. destruct (del_attrib l t) as [l' [a|]].
  - destruct H as (l1 & l2 & E1 & E2 & T & F). left. exists a, l1, l2. subst. auto.
  - right. destruct H as [-> H]. auto.
Qed.
Print Assumptions C46_del_attrib.

(* set_attrib: exactly one of the type afterwards, with the new value, provided at most one before *)
Theorem C46_set_attrib_one : forall l a, length (filter (of_type (attribtype a)) l) <= 1 ->
  filter (of_type (attribtype a)) (set_attrib l a) = [a].
Proof.
  intros l a H. unfold set_attrib. rewrite filter_app. cbn [filter]. unfold of_type at 2. rewrite ab_eqb_refl.
  destruct (C46_del_attrib l (attribtype a)) as [(b & x & y & E & T & F & D)|[F D]]; rewrite D; cbn [fst].
  - subst l. rewrite filter_app in *. cbn [filter] in H. rewrite (proj2 (of_type_true _ _) T) in H.
    rewrite app_length in H. cbn [length] in H. destruct (filter (of_type (attribtype a)) y) eqn:Y; [|cbn in H; lia].
    rewrite filter_none; [reflexivity|]. intros z I. apply of_type_false. auto.
  - rewrite filter_none; [reflexivity|]. intros z I. apply of_type_false. auto.
Qed.
Print Assumptions C46_set_attrib_one.

(* ... and all attributes of other types untouched, in the same order *)
Theorem C46_set_attrib_others : forall l a,
  filter (fun b => negb (of_type (attribtype a) b)) (set_attrib l a) =
  filter (fun b => negb (of_type (attribtype a) b)) l.
Proof.
  intros l a. unfold set_attrib. rewrite filter_app. cbn [filter]. unfold of_type at 2. rewrite ab_eqb_refl. cbn [negb].
  rewrite app_nil_r.
  destruct (C46_del_attrib l (attribtype a)) as [(b & x & y & E & T & F & D)|[F D]]; rewrite D; cbn [fst]; [|reflexivity].
  subst l. rewrite !filter_app. cbn [filter]. rewrite (proj2 (of_type_true _ _) T). reflexivity.
Qed.
Print Assumptions C46_set_attrib_others.

(* reading back *)
Theorem C46_set_then_get : forall l a, length (filter (of_type (attribtype a)) l) <= 1 ->
  find_attrib (set_attrib l a) (attribtype a) = Some a.
Proof.
  intros l a H. pose proof (C46_set_attrib_one l a H) as F. revert F. generalize (set_attrib l a). intros m.
  induction m as [|x m IH]; [discriminate|]. cbn [filter find_attrib]. unfold of_type at 1.
  destruct (ab_eqb (attribtype x) (attribtype a)); [|exact IH]. intros E. inversion E. reflexivity.
Qed.
Print Assumptions C46_set_then_get.

Theorem C46_del_then_get : forall l t, length (filter (of_type t) l) <= 1 ->
  find_attrib (fst (del_attrib l t)) t = None /\ snd (del_attrib l t) = find_attrib l t.
Proof.
  intros l t H.
  assert (NF : forall m, (forall b, In b m -> attribtype b <> t) -> find_attrib m t = None).
  { induction m as [|x m IH]; intros F; [reflexivity|]. cbn. destruct (ab_eqb_spec (attribtype x) t) as [E|E].
    - destruct (F x (or_introl eq_refl) E).
    - apply IH. intros b I. apply F. right. exact I. }
  destruct (C46_del_attrib l t) as [(b & x & y & E & T & F & D)|[F D]]; rewrite D; cbn [fst snd].
  - split.
    + apply NF. intros z I. apply in_app_or in I. destruct I as [I|I]; [auto|]. intros Z. subst l.
      rewrite filter_app, app_length in H. cbn [filter] in H. rewrite (proj2 (of_type_true _ _) T) in H. cbn [length] in H.
      assert (In z (filter (of_type t) y)) by (apply filter_In; split; [exact I|apply of_type_true; exact Z]).
      destruct (filter (of_type t) y); [contradiction|cbn in H; lia].
    + subst l. clear -F T. induction x as [|z x IH]; cbn [app find_attrib].
      * destruct (ab_eqb_spec (attribtype b) t); congruence.
      * destruct (ab_eqb_spec (attribtype z) t) as [E|E]; [destruct (F z (or_introl eq_refl) E)|].
        apply IH. intros w I. apply F. right. exact I.
  - rewrite NF by exact F. auto.
Qed.
Print Assumptions C46_del_then_get.

(* any sequence of set and del on an element that starts without attributes leaves at most one of each type *)
Inductive attr_op := SetA (a : Attribute) | DelA (t : AttribType).
Definition run_attr_op (l : list Attribute) (o : attr_op) : list Attribute :=
  match o with SetA a => set_attrib l a | DelA t => fst (del_attrib l t) end.

Lemma del_unique l t : unique_types l -> unique_types (fst (del_attrib l t)) /\
  forall a, In a (fst (del_attrib l t)) -> attribtype a <> t.
Proof.
  unfold unique_types. intros U.
  destruct (C46_del_attrib l t) as [(b & x & y & E & T & F & D)|[F D]]; rewrite D; cbn [fst]; [|auto].
  subst l. rewrite map_app in *. cbn [map] in U. pose proof (NoDup_remove_2 _ _ _ U) as N.
  split; [exact (NoDup_remove_1 _ _ _ U)|]. intros a I Z. apply N. rewrite T, <- Z, <- map_app.
  apply in_map. exact I.
Qed.
Theorem C46_sequences : forall ops l, unique_types l -> unique_types (fold_left run_attr_op ops l).
Proof.
  induction ops as [|o ops IH]; intros l U; [exact U|]. cbn [fold_left]. apply IH. destruct o as [a|t]; cbn [run_attr_op].
  - unfold set_attrib. destruct (del_unique l (attribtype a) U) as [U' F]. unfold unique_types in *.
    rewrite map_app. cbn [map]. apply NoDup_rev in U'. rewrite <- (rev_involutive (_ ++ _)), rev_app_distr.
    apply NoDup_rev. cbn [rev app]. constructor; [|exact U']. rewrite <- in_rev, in_map_iff. intros (b & E & I). exact (F b I E).
  - apply del_unique. exact U.
Qed.
Print Assumptions C46_sequences.

(* the builders that take text, spans and children do not touch the attributes *)
Theorem C46_builders_keep_attributes : forall e s ids xs c,
  e_attribs (e_with_text e s) = e_attribs e /\ e_attribs (e_with_span e ids) = e_attribs e /\
  e_attribs (e_with_children e xs) = e_attribs e /\ e_attribs (e_add_element e c) = e_attribs e.
Proof.
  intros e s ids xs c. repeat split. unfold e_with_span. revert e. induction ids as [|i ids IH]; intros e; [reflexivity|].
  cbn [fold_left]. rewrite IH. reflexivity.
Qed.
Print Assumptions C46_builders_keep_attributes.

Example C46_nonvacuous :
  let l := [A_Id "a"; A_Set "s"; A_Class "c"] in
  unique_types l /\ length (filter (of_type (attribtype (A_DeclarationRef 4))) l) <= 1 /\
  set_attrib l (A_DeclarationRef 4) = [A_Id "a"; A_Class "c"; A_DeclarationRef 4] /\
  del_attrib l AB_ID = ([A_Set "s"; A_Class "c"], Some (A_Id "a")).
Proof.
  cbn zeta. split; [|repeat split; try (vm_compute; reflexivity); vm_compute; lia].
  unfold unique_types. cbn. repeat constructor; cbn; intuition discriminate.
Qed.
