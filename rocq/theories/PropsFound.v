(* C70: what a query finds is found again after saving and loading. *)
From Coq Require Import String List Bool Arith NArith Lia.
From Verif Require Import Base BaseFacts Types TypesFacts SpecTable Attrib AttribFacts Element Store StoreFacts Metadata Document Select DocOps Text Xml Parser Serialiser History Spec
  FrameFacts InvFacts DocFacts Examples StoreThms InternFacts EncodeFacts PropsEncode LinkFacts TreeFacts ForestFacts SelSpec SelectFacts PropsLinks PropsSelect PropsQuery SerSpec PropsSer ParseSpec ParseFacts PropsParse PropsProv RoundFacts RoundProv RoundSpec RoundTree PropsRound PropsLoad RefFacts PropsTree PropsRefs
  SpanSpec SpanLinks PropsSpans ResaveSpec ResaveFacts PropsResave QueryRound PropsKept.
Import ListNotations.
Open Scope string_scope.
Open Scope list_scope.

Section Loaded.
Variables (fuel fuel' : nat) (O : oracle) (p : docprops) (d : document) (root : nat) (e : elementdata) (w : list wevent) (indent : nat) (d' : document).
Hypothesis (T : tidy d) (G : get_elementdata d root = Some e) (P : e_parent e <> None \/ root = 0) (WD : writable_doc d) (VR : values_in_range O d) (PP : plain_props d p)
  (PC : provenance_complete d) (FH : features_home d) (W : doc_xml fuel O d root = Ok w) (L : parse_document fuel' O p (reread indent w) = Ok d') (RM : room d').
Lemma place_pairs q t s s' : kept_query q t -> from_query d q = Ok s -> from_query d' q = Ok s' ->
  (forall k k', same_place d d' root k k' -> match_of d d' root (both_same d d') k k') /\
  forall k k', match_of d d' root (both_same d d') k k' -> (accepts d s (DElement k) <-> accepts d' s' (DElement k')).
Proof.
  intros KQ FQ FQ'. destruct (C54_references_partial _ _ _ _ _ _ _ _ _ _ T G P WD VR PP PC FH W L) as (n & ST & _). split; [apply (place_match d d' root (both_same d d') n ST)|].
  intros k k' (_ & par & m & S). destruct (same_tree_key _ _ _ _ _ _ _ S) as (x & x' & GX & GX' & TY & _ & BS & _).
  assert (R' : reachable normal d') by (eapply reach_load; [apply PP|apply load_ok_normal|exact L]). apply (kept_accepts d d' RM q t s s' k k' x x'); auto using tidy_reachable.
Qed.
End Loaded.

(* ---------------------------------------------------------------- the same elements, in the same order *)
(* A query for elements of a type, or of a type, set and class, has an answer before and after; and the answers list the
   elements at the same places, in the same order. This holds from every element of the tree, for every mode of recursion.
   Missing for the full claim: queries for a set or a processor alone (C70_set_only_refuted), for features, and for span
   annotations, which may change their order (C70_span_order_refuted; but see C70_members_kept_partial). *)
Theorem C70_selection_kept_partial : forall fuel fuel' O p d root e w indent d',
  tidy d -> get_elementdata d root = Some e -> (e_parent e <> None \/ root = 0) -> writable_doc d -> values_in_range O d -> plain_props d p -> provenance_complete d -> features_home d ->
  doc_xml fuel O d root = Ok w -> parse_document fuel' O p (reread indent w) = Ok d' -> room d' -> spans_linked d ->
  forall q t, kept_query q t -> group_contains EG_Span t = false ->
  exists s s', from_query d q = Ok s /\ from_query d' q = Ok s' /\
    forall k k' r sp m m' l l', same_place d d' root k k' -> select_by_key m d k s r false sp = Ok l -> select_by_key m' d' k' s' r false sp = Ok l' -> Forall2 (same_place d d' root) l l'.
Proof.
  intros fuel fuel' O p d root e w indent d' T G P WD VR PP PC FH W L RM SL q t KQ NS. destruct (kept_compiles d q t KQ) as (s & FQ). destruct (kept_compiles d' q t KQ) as (s' & FQ'). exists s, s'. split; [exact FQ|]. split; [exact FQ'|].
  intros k k' r sp m m' l l' PL S S'. destruct (place_pairs _ _ _ _ _ _ _ _ _ _ T G P WD VR PP PC FH W L RM q t s s' KQ FQ FQ') as (PM & AC). pose proof KQ as (QT & _).
  destruct (loaded_more _ _ _ _ _ _ _ _ _ _ T G P WD (proj1 PP) W L) as (_ & _ & _ & _ & _ & SL' & _).
  pose proof (PM _ _ PL) as M. assert (X : get_elementdata d k <> None). { destruct M as (_ & par & n & ST). destruct (same_tree_key _ _ _ _ _ _ _ ST) as (x & _ & GX & _). congruence. }
  assert (A : acyclic d) by (intros j; apply C21_forest_partial, T). destruct (walk_exists d r (C18_links_agree_partial d T) A k X 1) as (wl & WL). pose proof (proj1 (walk_own d r) _ _ _ WL) as OW.
  destruct (proj1 (own_pairs d d' root (both_same d d') r) _ _ OW _ M) as (ks' & OW' & F).
  pose proof (selected d q s t r sp m k l (linked_refs d SL) NS QT FQ S _ OW) as C. pose proof (selected d' q s' t r sp m' k' l' (linked_refs d' SL') NS QT FQ' S' _ OW') as C'.
  pose proof (chosen_pairs _ _ _ _ _ F AC _ _ C C') as R. eapply Forall2_imp; [|exact R]. intros a b (Q & _). exact Q.
Qed.
Print Assumptions C70_selection_kept_partial.
(* In particular [select], as a user calls it on the whole document with a query for a type *)
Theorem C70_elements_kept_partial : forall fuel fuel' O p d root e w indent d' t m m' l l',
  tidy d -> get_elementdata d root = Some e -> (e_parent e <> None \/ root = 0) -> writable_doc d -> values_in_range O d -> plain_props d p -> provenance_complete d -> features_home d ->
  doc_xml fuel O d root = Ok w -> parse_document fuel' O p (reread indent w) = Ok d' -> room d' -> spans_linked d -> t <> ET_Feature -> group_contains EG_Span t = false ->
  get_elements m d root t CAny RAlways = Ok l -> get_elements m' d' 0 t CAny RAlways = Ok l' -> Forall2 (same_place d d' root) l l'.
Proof.
  intros fuel fuel' O p d root e w indent d' t m m' l l' T G P WD VR PP PC FH W L RM SL NF NS S S'.
  assert (KQ : kept_query (qb_set (qb_element q_select (CIs t)) CAny) t) by (split; [reflexivity|]; split; [exact NF|]; split; [reflexivity|]; split; [reflexivity|]; left; split; [reflexivity|intros c; discriminate]).
  destruct (C70_selection_kept_partial _ _ _ _ _ _ _ _ _ _ T G P WD VR PP PC FH W L RM SL _ t KQ NS) as (s & s' & FQ & FQ' & H).
  unfold get_elements, from_query_expect in S, S'. rewrite FQ in S. rewrite FQ' in S'. cbn [unwrap rbind] in S, S'. apply (H root 0 RAlways true m m' l l'); [constructor|exact S|exact S'].
Qed.
Print Assumptions C70_elements_kept_partial.
(* For span annotations too: an element of the tree is found before if and only if the one at its place is found after. *)
Theorem C70_members_kept_partial : forall fuel fuel' O p d root e w indent d',
  tidy d -> get_elementdata d root = Some e -> (e_parent e <> None \/ root = 0) -> writable_doc d -> values_in_range O d -> plain_props d p -> provenance_complete d -> features_home d ->
  doc_xml fuel O d root = Ok w -> parse_document fuel' O p (reread indent w) = Ok d' -> room d' ->
  forall q t, kept_query q t ->
  exists s s', from_query d q = Ok s /\ from_query d' q = Ok s' /\
    forall sp m m' l l', select_by_key m d root s RAlways false sp = Ok l -> select_by_key m' d' 0 s' RAlways false sp = Ok l' ->
    forall c c', same_place d d' root c c' -> c <> root -> (In c l <-> In c' l').
Proof.
  intros fuel fuel' O p d root e w indent d' T G P WD VR PP PC FH W L RM q t KQ. destruct (kept_compiles d q t KQ) as (s & FQ). destruct (kept_compiles d' q t KQ) as (s' & FQ'). exists s, s'. split; [exact FQ|]. split; [exact FQ'|].
  intros sp m m' l l' S S' c c' PL NR. destruct (place_pairs _ _ _ _ _ _ _ _ _ _ T G P WD VR PP PC FH W L RM q t s s' KQ FQ FQ') as (PM & AC).
  pose proof (PM _ _ (place_root d d' root)) as M. assert (A : acyclic d) by (intros j; apply C21_forest_partial, T). pose proof (C18_links_agree_partial d T) as CO.
  destruct (walk_exists d RAlways CO A root ltac:(congruence) 1) as (wl & WL). pose proof (proj1 (walk_own d RAlways) _ _ _ WL) as OW. destruct (proj1 (own_pairs d d' root (both_same d d') RAlways) _ _ OW _ M) as (ks' & OW' & F).
  (* both are in the walks *)
  assert (X : forall a a', same_place d d' root a a' -> a = root /\ a' = 0 \/ In a (own_keys wl) /\ In a' ks').
  { assert (CL : forall x r, r = RAlways -> (forall k ks, own_walk x r k ks -> (forall c i, nth_error (children_of x k) i = Some c -> In c ks) /\ forall j c i, In j ks -> nth_error (children_of x j) i = Some c -> In c ks) /\
      (forall t cs ks, own_list x r t cs ks -> (forall c i, nth_error cs i = Some c -> In c ks) /\ forall j c i, In j ks -> nth_error (children_of x j) i = Some c -> In c ks)).
    { intros x r ->. apply (own_both x RAlways (fun k ks _ => (forall c i, nth_error (children_of x k) i = Some c -> In c ks) /\ forall j c i, In j ks -> nth_error (children_of x j) i = Some c -> In c ks)
        (fun t cs ks _ => (forall c i, nth_error cs i = Some c -> In c ks) /\ forall j c i, In j ks -> nth_error (children_of x j) i = Some c -> In c ks)).
      - intros k xe ks GX O1 (IH1 & IH2). split; [|exact IH2]. unfold children_of. rewrite GX. exact IH1.
      - intros t0. split; [intros b [|i] Q; discriminate|intros j b i []].
      - intros t0 b rest below ks D O1 (A1 & A2) O2 (B1 & B2). split.
        + intros b' [|i] Q; [cbn in Q; injection Q as <-; left; reflexivity|]. right. apply in_app_iff. right. apply (B1 _ i Q).
        + intros j b' i [<-|J] Q; right; apply in_app_iff; [left; apply (A1 _ i Q)|]. apply in_app_iff in J. destruct J as [J|J]; [left; eapply A2; eassumption|right; eapply B2; eassumption].
      - intros t0 b rest ks D O1 _. destruct D. exact I. }
    destruct (proj1 (CL d RAlways eq_refl) _ _ OW) as (D1 & D2). destruct (proj1 (CL d' RAlways eq_refl) _ _ OW') as (E1 & E2).
    intros a a' PA. induction PA as [|k k' i b b' PA IH B B']; [left; auto|right]. destruct IH as [(-> & ->)|(I1 & I2)]; [split; [eapply D1, B|eapply E1, B']|split; [eapply D2; eassumption|eapply E2; eassumption]]. }
  destruct (X _ _ PL) as [(Q & _)|(I1 & I2)]; [contradiction|]. specialize (AC _ _ (PM _ _ PL)). split; intros H.
  - apply (selected_in d' q s' RAlways sp m' 0 l' FQ' S' ks' OW' c' I2). apply AC. apply (selected_accepts d q s RAlways sp m root l FQ S c H).
  - apply (selected_in d q s RAlways sp m root l FQ S _ OW c I1). apply AC. apply (selected_accepts d' q s' RAlways sp m' 0 l' FQ' S' c' H).
Qed.
Print Assumptions C70_members_kept_partial.

(* ---------------------------------------------------------------- examples *)
Definition keys_are (r : res (list nat)) (l : list nat) : bool := match r with Ok x => if list_eq_dec Nat.eq_dec x l then true else false | _ => false end.
Lemma keys_are_spec r l : keys_are r l = true -> r = Ok l.
Proof. destruct r; try discriminate. cbn. destruct (list_eq_dec _ _ _); [congruence|discriminate]. Qed.
(* the answer to a query *)
Definition answer_in (n : nat) (d : document) (k : nat) (q : query) (r : recursion) : res (list nat) := let? s := from_query d q in select n d k s r.
Definition answer := answer_in fuel1.
Lemma answer_in_select n d k q r l s : answer_in n d k q r = Ok l -> from_query d q = Ok s -> select_by_key n d k s r false true = Ok l.
Proof. unfold answer_in. intros H E. rewrite E in H. exact H. Qed.
Lemma answer_select d k q r l s : answer d k q r = Ok l -> from_query d q = Ok s -> select_by_key fuel1 d k s r false true = Ok l.
Proof. apply answer_in_select. Qed.
(* a document that meets all conditions, saved and loaded *)
Record found_case_of (d d' : document) : Prop := {
  fc_tidy : tidy d; fc_writable : writable_doc d; fc_range : values_in_range rt_oracle d; fc_provenance : provenance_complete d; fc_home : features_home d; fc_linked : spans_linked d;
  fc_loads : loads_back 2 d d'; fc_room : room d'; fc_root : exists e, get_elementdata d 0 = Some e }.
Lemma found_case ops P : match exec_settled ex_doc ops with
  | Some d => match round_trip 2 d with
              | Some d' => all_elements d (fun e => forallb (in_rangeb rt_oracle) (e_attribs e)) && all_elements d (fun e => writableb d (text_first (e_type e)) (e_data e)) && provenance_ok d && all_elements d (homeb d) && roomb d' &&
                           is_some (get_elementdata d 0) && P d d'
              | None => false end
  | None => false end = true ->
  exists d d', found_case_of d d' /\ P d d' = true.
Proof.
  destruct (exec_settled ex_doc ops) as [d|] eqn:E; [|discriminate]. destruct (round_trip 2 d) as [d'|] eqn:R; [|discriminate]. intros H.
  apply andb_prop in H. destruct H as (H & H7). apply andb_prop in H. destruct H as (H & H6). apply andb_prop in H. destruct H as (H & H5). apply andb_prop in H. destruct H as (H & H4). apply andb_prop in H. destruct H as (H & H3). apply andb_prop in H. destruct H as (H1 & H2).
  pose proof (exec_settled_spec _ _ _ ex_settled E) as S. exists d, d'. split; [|exact H7]. split.
  - apply settled_tidy, S.
  - intros k x GX. apply writableb_spec, (all_elements_spec _ _ H2 _ _ GX).
  - intros k x a GX I'. pose proof (all_elements_spec _ _ H1 _ _ GX) as Q. cbn beta in Q. rewrite forallb_forall in Q. apply in_rangeb_spec, Q, I'.
  - apply provenance_ok_spec, H3.
  - apply homeb_spec, H4.
  - apply C67_spans_linked_partial, S.
  - unfold round_trip in R. destruct (doc_xml fuel1 rt_oracle d 0) as [w| | |] eqn:W; try discriminate. destruct (parse_document fuel1 rt_oracle no_props (reread 2 w)) as [d0| | |] eqn:L; try discriminate. injection R as ->. exists fuel1, w. auto.
  - apply roomb_spec, H5.
  - destruct (get_elementdata d 0) as [x|]; [eauto|discriminate].
Qed.
Definition ask_adj : query := qb_class (qb_set (ask ET_PosAnnotation) (CIs "posset")) (CIs "adj").
(* one word is tagged as an adjective: it is the second word before and after, and its tag is found by the query *)
Example C70_nonvacuous : exists d d', found_case_of d d' /\ plain_props d no_props /\ kept_query ask_adj ET_PosAnnotation /\ kept_query (ask ET_Word) ET_Word /\ group_contains EG_Span ET_PosAnnotation = false /\
  answer d 0 ask_adj RAlways = Ok [5] /\ answer d' 0 ask_adj RAlways = Ok [9] /\ same_place d d' 0 5 9 /\
  get_elements fuel1 d 0 ET_Word CAny RAlways = Ok [3; 6; 9] /\ get_elements fuel1 d' 0 ET_Word CAny RAlways = Ok [3; 7; 10] /\
  answer d 0 (ask ET_Entity) RAlways = Ok [15] /\ answer d' 0 (ask ET_Entity) RAlways = Ok [14].
Proof.
  destruct (found_case [] (fun d d' => keys_are (answer d 0 ask_adj RAlways) [5] && keys_are (answer d' 0 ask_adj RAlways) [9] && keys_are (get_elements fuel1 d 0 ET_Word CAny RAlways) [3; 6; 9] && keys_are (get_elements fuel1 d' 0 ET_Word CAny RAlways) [3; 7; 10] &&
    keys_are (answer d 0 (ask ET_Entity) RAlways) [15] && keys_are (answer d' 0 (ask ET_Entity) RAlways) [14])) as (d & d' & FC & P); [vm_compute; reflexivity|].
  apply andb_prop in P. destruct P as (P & P6). apply andb_prop in P. destruct P as (P & P5). apply andb_prop in P. destruct P as (P & P4). apply andb_prop in P. destruct P as (P & P3). apply andb_prop in P. destruct P as (P1 & P2).
  assert (KP : kept_query ask_adj ET_PosAnnotation) by (split; [reflexivity|]; split; [discriminate|]; split; [reflexivity|]; split; [reflexivity|]; right; split; [eexists; reflexivity|]; split; [discriminate|]; right; eexists; reflexivity).
  apply keys_are_spec in P1, P2, P3, P4, P5, P6.
  exists d, d'. split; [exact FC|]. split; [exact (no_props_plain _)|]. split; [exact KP|]. split; [split; [reflexivity|]; split; [discriminate|]; split; [reflexivity|]; split; [reflexivity|]; left; split; [reflexivity|intros c; discriminate]|]. split; [reflexivity|].
  split; [exact P1|]. split; [exact P2|]. split; [|split; [exact P3|]; split; [exact P4|]; split; assumption].
  destruct FC as [T WD VR PC FH SL (n & w & W & L) RM (e & G)]. destruct (C70_selection_kept_partial _ _ _ _ _ _ _ _ _ _ T G (or_intror eq_refl) WD VR (no_props_plain _) PC FH W L RM SL _ _ KP eq_refl) as (s & s' & FQ & FQ' & H).
  pose proof (H 0 0 RAlways true fuel1 fuel1 _ _ (place_root d d' 0) (answer_select _ _ _ _ _ _ P1 FQ) (answer_select _ _ _ _ _ _ P2 FQ')) as F. inversion F; subst. assumption.
Qed.
(* An annotation without a class is no longer found by its set: the set it has by default is not in its tag. *)
Theorem C70_set_only_refuted : exists d d' q, found_case_of d d' /\ q = qb_set (ask ET_LemmaAnnotation) (CIs "lemset") /\ answer d 0 q RAlways = Ok [16; 17] /\ answer d' 0 q RAlways = Ok [6].
Proof.
  destruct (found_case [OAddElementTo 3 (e_attr ET_LemmaAnnotation [A_Set "lemset"])] (fun d d' => let q := qb_set (ask ET_LemmaAnnotation) (CIs "lemset") in keys_are (answer d 0 q RAlways) [16; 17] && keys_are (answer d' 0 q RAlways) [6]))
    as (d & d' & FC & P); [vm_compute; reflexivity|]. cbv zeta in P. apply andb_prop in P. destruct P as (P1 & P2). exists d, d', (qb_set (ask ET_LemmaAnnotation) (CIs "lemset")). split; [exact FC|]. split; [reflexivity|]. split; apply keys_are_spec; assumption.
Qed.
Print Assumptions C70_set_only_refuted.
(* Two entities over the same word, the one that comes last in the document made first: a selection lists the last one
   first, and after saving and loading the other one. *)
Definition two_entities : list op :=
  [OAddElementTo 11 (e_attr ET_EntitiesLayer [A_Set "entset"]); OAddElementTo 17 (e_attr ET_Entity [A_Class "org"]); OAddElementTo 18 (e_attr ET_WordReference [A_Idref "w.1"]);
   OAddElementTo 12 (e_attr ET_Entity [A_Class "loc"]); OAddElementTo 20 (e_attr ET_WordReference [A_Idref "w.1"])].
Definition class_of (d : document) (k : nat) : option string := match get_elementdata d k with Some e => match r_class d e with Ok o => o | _ => None end | None => None end.
Definition found_classes (d : document) (q : query) : list (option string) := match answer d 0 q RAlways with Ok l => map (class_of d) l | _ => [] end.
Definition class_eq_dec (a b : option string) : {a = b} + {a <> b}.
Proof. decide equality. apply String.string_dec. Defined.
Definition classes_are (l m : list (option string)) : bool := if list_eq_dec class_eq_dec l m then true else false.
Lemma classes_are_spec l m : classes_are l m = true -> l = m.
Proof. unfold classes_are. destruct (list_eq_dec class_eq_dec l m); [auto|discriminate]. Qed.
Theorem C70_span_order_refuted : exists d d', found_case_of d d' /\ found_classes d (ask ET_Entity) = [Some "org"; Some "loc"; Some "per"] /\ found_classes d' (ask ET_Entity) = [Some "loc"; Some "org"; Some "per"].
Proof.
  destruct (found_case two_entities (fun d d' => classes_are (found_classes d (ask ET_Entity)) [Some "org"; Some "loc"; Some "per"] && classes_are (found_classes d' (ask ET_Entity)) [Some "loc"; Some "org"; Some "per"])) as (d & d' & FC & P); [vm_compute; reflexivity|].
  apply andb_prop in P. destruct P as (P1 & P2). exists d, d'. split; [exact FC|]. split; apply classes_are_spec; assumption.
Qed.
Print Assumptions C70_span_order_refuted.
