(* Property C57: loading a document returns. The XML is given as the events of a namespace-aware reader. *)
From Coq Require Import String List Bool Arith NArith Lia.
From Verif Require Import Base BaseFacts Types TypesFacts SpecTable Attrib AttribFacts Element Store StoreFacts Metadata Document Select DocOps Xml Parser History Spec FrameFacts InvFacts DocFacts StoreThms InternFacts EncodeFacts PropsEncode LinkFacts TreeFacts ForestFacts PropsLinks NoPanic Returns PropsPanic Examples ParseSpec ParseFacts PropsParse.
Import ListNotations.
Open Scope string_scope.
Open Scope list_scope.

(* the outcome is a value or an error *)
Definition outcome {A} (r : res A) : Prop := (exists a, r = Ok a) \/ (exists x, r = Err x).
Lemma outcome_iff {A} (r : res A) : outcome r <-> r <> Panic /\ r <> OutOfFuel.
Proof.
  split; [intros [(a & ->)|(x & ->)]; split; discriminate|]. destruct r as [a|x| |]; intros (A1 & A2); [left; eauto|right; eauto|congruence|congruence].
Qed.
Lemma outcome_ok {A} (a : A) : outcome (Ok a).
Proof. left. eauto. Qed.
Lemma outcome_err {A} x : outcome (@Err A x).
Proof. right. eauto. Qed.
#[local] Hint Resolve outcome_ok outcome_err : core.
Lemma outcome_rbind {A B} (r : res A) (f : A -> res B) : outcome r -> (forall a, r = Ok a -> outcome (f a)) -> outcome (rbind r f).
Proof. intros [(a & ->)|(x & ->)] H; [apply H; reflexivity|apply outcome_err]. Qed.
Lemma outcome_sbind {S A B} (r : S * res A) (f : S -> A -> S * res B) : outcome (snd r) -> (forall s a, r = (s, Ok a) -> outcome (snd (f s a))) -> outcome (snd (sbind r f)).
Proof. destruct r as [s [a|x| |]]; cbn; intros H K; [apply K; reflexivity|auto|destruct H as [(y & H)|(y & H)]; discriminate|destruct H as [(y & H)|(y & H)]; discriminate]. Qed.
Lemma outcome_map_err {S A} e (r : S * res A) : outcome (snd r) -> outcome (snd (map_err e r)).
Proof. destruct r as [s [a|x| |]]; cbn; auto; intros [(y & H)|(y & H)]; discriminate. Qed.
Lemma outcome_parse_err {A} (r : res A) : outcome r -> outcome (parse_err r).
Proof. destruct r; cbn; auto; intros [(y & H)|(y & H)]; discriminate. Qed.

(* ---------------------------------------------------------------- the attributes of the tags *)
(* every attribute of every tag can be read: none is malformed or repeated, and its value can be decoded *)
Definition readable (l : xattrs) : Prop := forall x, In x l -> exists k v, x = Some (mkXA k (Some v)).
Definition tags_readable (l : list event) : Prop := forall ns name attrs, In (EvStart ns name attrs) l \/ In (EvEmpty ns name attrs) l -> readable attrs.
Lemma readable_tl a l : readable (a :: l) -> readable l.
Proof. intros H x I. apply H. right. exact I. Qed.
Lemma readable_hd a l : readable (a :: l) -> exists k v, a = Some (mkXA k (Some v)).
Proof. intros H. apply H. left. reflexivity. Qed.
Lemma tags_tl ev l : tags_readable (ev :: l) -> tags_readable l.
Proof. intros H ns name attrs [I|I]; apply (H ns name attrs); [left|right]; right; exact I. Qed.
Lemma tags_hd ev l : tags_readable (ev :: l) -> tags_readable [ev].
Proof. intros H ns name attrs [[I|[]]|[I|[]]]; apply (H ns name attrs); [left|right]; left; exact I. Qed.
Ltac rd H := let k := fresh "k" in let v := fresh "v" in destruct (readable_hd _ _ H) as (k & v & ->); apply readable_tl in H.

Lemma root_attrs_out l : readable l -> forall d, outcome (root_attrs d l).
Proof. induction l as [|a l IH]; intros R d; [apply outcome_ok|]. rd R. cbn. destruct (k =? "xml:id"); [apply IH, R|]. destruct (k =? "version"); apply IH, R. Qed.
Lemma proc_attr_out p k v : outcome (proc_attr p k v).
Proof. destruct p. unfold proc_attr. repeat match goal with |- context [if ?x then _ else _] => destruct x; auto | |- context [match ?x with Some _ => _ | None => _ end] => destruct x; auto end. Qed.
Lemma parse_proc_out l : readable l -> forall p, outcome (parse_proc_attrs p l).
Proof. induction l as [|a l IH]; intros R p; [apply outcome_ok|]. rd R. cbn. apply outcome_rbind; [apply proc_attr_out|]. intros q _. apply IH, R. Qed.
Lemma parse_decl_out name l : readable l -> outcome (parse_declaration name l).
Proof.
  intros R. unfold parse_declaration.
  assert (A : forall l, readable l -> forall s a f, outcome (parse_decl_attrs s a f l)).
  { clear. induction l as [|a l IH]; intros R s al f; [apply outcome_ok|]. rd R. cbn. repeat match goal with |- context [if ?x then _ else _] => destruct x end; apply IH, R. }
  apply outcome_rbind.
  - unfold get_declaration_type. destruct (split_dash name) as [[x y]|]; [|auto]. destruct (y =? "-annotation"); [|auto]. destruct (at_from_str x); cbn; auto.
  - intros t _. apply outcome_rbind; [apply A, R|]. intros [[s a] f] _. auto.
Qed.
Lemma annotator_out l : readable l -> forall p, outcome (annotator_attrs p l).
Proof. induction l as [|a l IH]; intros R p; [apply outcome_ok|]. rd R. cbn. destruct (k =? "processor"); apply IH, R. Qed.
Lemma metadata_out l : readable l -> forall m, outcome (metadata_attrs m l).
Proof. induction l as [|a l IH]; intros R p; [apply outcome_ok|]. rd R. cbn. destruct (k =? "src"); [apply IH, R|]. destruct (k =? "type"); apply IH, R. Qed.
Lemma submetadata_out l : readable l -> forall i t, outcome (submetadata_attrs i t l).
Proof. induction l as [|a l IH]; intros R i t; [apply outcome_ok|]. rd R. cbn. destruct (k =? "xml:id"); [apply IH, R|]. destruct (k =? "type"); apply IH, R. Qed.
Lemma meta_out l : readable l -> forall i, outcome (meta_attrs i l).
Proof. induction l as [|a l IH]; intros R i; [apply outcome_ok|]. rd R. cbn. destruct ((k =? "id") || (k =? "xml:id")); apply IH, R. Qed.
Lemma parse_attrib_out O k v : outcome (parse_attrib O k v).
Proof.
  unfold parse_attrib. destruct v as [v|]; [|auto]. destruct (str_match (attrib_parsers O) k) as [f|] eqn:E; [|destruct (str_contains_char _ _); auto].
  assert (K : forall l : list (string * (string -> res Attribute)), (forall p, In p l -> outcome (snd p v)) -> forall f, str_match l k = Some f -> outcome (f v)).
  { clear. induction l as [|[n g] l IH]; intros H f E; [discriminate|]. cbn in E. destruct (k =? n); [injection E as <-; apply (H (n, g)); left; reflexivity|]. eapply IH; [|exact E]. intros p I. apply H. right. exact I. }
  eapply K; [|exact E]. intros p I. cbn in I. decompose [or] I; subst; try contradiction; cbn [snd]; auto;
    unfold parse_annotatortype, parse_yes_no; repeat match goal with |- context [match ?x with Some _ => _ | None => _ end] => destruct x; auto | |- context [if ?x then _ else _] => destruct x; auto end.
Qed.
Lemma parse_attributes_out O t l : readable l -> outcome (parse_attributes O t l).
Proof.
  induction l as [|a l IH]; intros R; [apply outcome_ok|]. rd R. cbn [parse_attributes xa_key xa_val]. destruct (parse_attrib_out O k (Some v)) as [(x & ->)|(x & ->)].
  - apply outcome_rbind; [apply IH, R|auto].
  - destruct (feature_subset k (p_accepted_data (props t))); [|auto]. apply outcome_rbind; [apply IH, R|auto].
Qed.

(* ---------------------------------------------------------------- the metadata *)
Lemma st_add_out {T} mx mi ak (s : store T) x : outcome (snd (st_add mx mi ak s x)).
Proof. unfold st_add. destruct (st_get_key _ _ _); cbn [snd]; auto. destruct (_ <=? _)%N; cbn [snd]; auto. Qed.
Lemma add_provenance_out d x : outcome (snd (add_provenance d x)).
Proof. unfold add_provenance. pose proof (st_add_out max_proc pr_maybe_id pr_assign_key (doc_procs d) x) as H. destruct (st_add _ _ _ _ _). exact H. Qed.
Lemma add_declaration_out d x : outcome (snd (add_declaration d x)).
Proof. unfold add_declaration. match goal with |- context [st_add ?a ?b ?c ?e ?f] => pose proof (st_add_out a b c e f) as H; destruct (st_add a b c e f) end. exact H. Qed.
Lemma attach_processor_out d p c : outcome (snd (attach_processor d p c)).
Proof. unfold attach_processor. destruct (get_processor d p); cbn; auto. destruct (get_processor d c); cbn; auto. Qed.
Lemma add_subprocessor_out p : forall d q, outcome (snd (add_subprocessor d q p)).
Proof.
  induction p as [p IH] using proc_ind. intros d q. rewrite add_subprocessor_eq. apply outcome_sbind; [apply add_provenance_out|]. intros d1 c _.
  apply outcome_sbind; [apply attach_processor_out|]. intros d2 u _. apply outcome_sbind; [|intros; cbn; auto]. clear u. revert d2.
  induction IH as [|x l HX HL IHl]; intros d2; cbn [add_subprocessors]; [cbn; auto|]. apply outcome_sbind; [apply HX|]. intros d3 k _. apply IHl.
Qed.
Lemma add_subprocessors_out l : forall d q, outcome (snd (add_subprocessors d q l)).
Proof. induction l as [|x l IH]; intros d q; cbn [add_subprocessors]; [cbn; auto|]. apply outcome_sbind; [apply add_subprocessor_out|]. intros. apply IH. Qed.
Lemma add_processor_out d p : outcome (snd (add_processor d p)).
Proof. unfold add_processor. apply outcome_sbind; [apply add_provenance_out|]. intros d1 c _. apply outcome_sbind; [apply add_subprocessors_out|]. intros; cbn; auto. Qed.
Lemma parsed_processor_out d st p : outcome (snd (add_parsed_processor d st p)).
Proof. unfold add_parsed_processor. apply outcome_map_err. destruct st; [apply add_processor_out|apply add_subprocessor_out]. Qed.
Lemma meta_empty_out d s ns name attrs : readable attrs -> outcome (snd (meta_empty d s ns name attrs)).
Proof.
  intros R. unfold meta_empty. destruct ns; [|apply outcome_ok|apply outcome_ok]. destruct ((name =? "processor") && ms_prov s).
  - apply outcome_sbind; [apply outcome_parse_err, parse_proc_out, R|]. intros d1 p _. apply outcome_sbind; [apply parsed_processor_out|]. intros; cbn; auto.
  - destruct ((name =? "annotator") && ms_decls s); [|apply outcome_ok]. apply outcome_sbind; [apply annotator_out, R|]. intros d1 [pid|] _; [|apply outcome_ok]. destruct (ms_dk s); apply outcome_ok.
Qed.
Lemma meta_start_out d s ns name attrs : readable attrs -> outcome (snd (meta_start d s ns name attrs)).
Proof.
  intros R. unfold meta_start. destruct ns; [|apply outcome_err|apply outcome_err].
  destruct (name =? "metadata"); [apply outcome_sbind; [apply metadata_out, R|intros; cbn; auto]|].
  destruct (name =? "annotations"); [cbn; auto|]. destruct (name =? "provenance"); [cbn; auto|].
  destruct (name =? "submetadata"); [apply outcome_sbind; [apply submetadata_out, R|intros d1 x _; destruct (fst x); cbn; auto]|].
  destruct (name =? "meta"); [apply outcome_sbind; [apply meta_out, R|intros; cbn; auto]|].
  destruct ((name =? "processor") && ms_prov s).
  - apply outcome_sbind; [apply outcome_parse_err, parse_proc_out, R|]. intros d1 p _. apply outcome_sbind; [apply parsed_processor_out|]. intros; cbn; auto.
  - destruct (ms_decls s); [|cbn; auto]. apply outcome_sbind; [apply outcome_parse_err, parse_decl_out, R|]. intros d1 x _.
    apply outcome_sbind; [apply outcome_map_err, add_declaration_out|]. intros; cbn; auto.
Qed.
Lemma parse_metadata_out l : tags_readable l -> forall d s, outcome (snd (parse_metadata d s l)).
Proof.
  induction l as [|ev l IH]; intros R d s; cbn [parse_metadata]; [cbn; auto|]. specialize (IH (tags_tl _ _ R)).
  destruct ev as [ns name attrs|ns name attrs|ns name|[t|]|t|t| |]; try apply IH; try (cbn; auto; fail).
  - apply outcome_sbind; [apply meta_start_out, (R ns name); left; left; reflexivity|]. intros; apply IH.
  - apply outcome_sbind; [apply meta_empty_out, (R ns name); right; left; reflexivity|]. intros; apply IH.
  - destruct (meta_end d s ns name) as [d1 [s1|]]; [apply IH|cbn; auto].
Qed.
Lemma parse_root_out l : tags_readable l -> forall d, outcome (parse_root d l).
Proof.
  induction l as [|ev l IH]; intros R d; cbn [parse_root]; [auto|]. specialize (IH (tags_tl _ _ R)). destruct ev as [ns name attrs|ns name attrs|ns name|t|t|t| |]; try apply IH; auto.
  destruct ns; auto. destruct (name =? "FoLiA"); auto. apply outcome_rbind; [apply root_attrs_out, (R NsFolia name); left; left; reflexivity|auto].
Qed.
Lemma parse_body_out O l : tags_readable l -> outcome (parse_body O l).
Proof.
  induction l as [|ev l IH]; intros R; cbn [parse_body]; [auto|]. specialize (IH (tags_tl _ _ R)). destruct ev as [ns name attrs|ns name attrs|ns name|t|t|t| |]; try apply IH; auto.
  assert (RA : readable attrs) by (apply (R ns name); left; left; reflexivity).
  destruct ns; auto. destruct (name =? "text"); [destruct (parse_attributes_out O ET_Text attrs RA) as [(x & ->)|(x & ->)]; auto|].
  destruct (name =? "speech"); [destruct (parse_attributes_out O ET_Speech attrs RA) as [(x & ->)|(x & ->)]; auto|auto].
Qed.

(* ---------------------------------------------------------------- the loop ends *)
Lemma key_by_id_nf d id : key_by_id d id <> OutOfFuel.
Proof. unfold key_by_id. destruct (get_element_key_by_id d id) as [j|]; [|discriminate]. destruct (get_elementdata d j); discriminate. Qed.
Lemma first_match_nf d s l : full_ok d -> first_match d s l <> OutOfFuel.
Proof.
  intros F. induction l as [|k l IH]; cbn [first_match]; [discriminate|].
  destruct (full_matches d s (DElement k) F) as (b & ->). cbn [rbind]. destruct b; [discriminate|exact IH].
Qed.
Lemma post_add_stack_settles d k st : full_ok d -> fin d -> settlesS (fun fuel => post_add fuel d k (Some st)).
Proof.
  intros FO F. pose proof (post_add_settles d k F) as P. unfold post_add in *. destruct (get_elementdata d k) as [e|]; [|apply settlesS_const; discriminate].
  destruct (e_type e); try exact P. clear P. unfold post_add_wref. destruct (attribs_last_idref (e_attribs e) None) as [r|]; [|apply settlesS_const; discriminate].
  apply settlesS_fixed. apply sbind_nf; [apply first_match_nf, FO|]. intros d1 [sk|]; [|discriminate]. apply sbind_nf; [apply key_by_id_nf|]. intros d2 [tk|]; discriminate.
Qed.
Lemma add_attr_children_nf key l : forall d, snd (add_attr_children d key l) <> OutOfFuel.
Proof.
  induction l as [|c l IH]; intros d; cbn [add_attr_children]; [discriminate|].
  apply sbind_nf; [apply store_add_nf|]. intros d1 ck. apply sbind_nf; [apply attach_nf|]. intros d2 u. apply IH.
Qed.
Lemma map_err_nf {A} e (r : document * res A) : snd r <> OutOfFuel -> snd (map_err e r) <> OutOfFuel.
Proof. destruct r as [d []]; cbn; congruence. Qed.
Lemma prims_normal_step fuel O d st ev : prims normal d (fst (elements_step fuel O d st ev)).
Proof. apply (elements_step_prims normal fuel O [ev]); [apply load_ok_normal|left; reflexivity]. Qed.
Lemma parse_elem_out O name attrs : readable attrs -> outcome (parse_err (parse_elem O name attrs)).
Proof.
  intros R. apply outcome_parse_err. unfold parse_elem. destruct (et_from_str name) as [t|]; cbn; [|apply outcome_err].
  destruct (parse_attributes_out O t attrs R) as [(x & ->)|(x & ->)]; cbn; [apply outcome_ok|apply outcome_err].
Qed.
Lemma tag_new d st ev l attrs : pinv d st (ev :: l) -> (exists ns name, ev = EvStart ns name attrs \/ ev = EvEmpty ns name attrs) ->
  NoDup (tag_ids attrs) /\ forall id, In id (tag_ids attrs) -> ~ has_id d id /\ ~ In id (xml_ids l).
Proof.
  intros [F0 N0 O0 I0 X0] (ns & name & E). assert (XE : xml_ids (ev :: l) = tag_ids attrs ++ xml_ids l) by (destruct E as [->| ->]; reflexivity).
  rewrite XE in X0, I0. apply NoDup_app_inv in X0. destruct X0 as (A & B & C). split; [exact A|]. intros id J. split; [|apply C, J]. intros Q. apply (I0 id Q), in_app_iff. auto.
Qed.
(* an empty tag leaves a forest before it is post-processed *)
Lemma empty_forest O d st name attrs l x d1 key d2 u d3 v : pinv d st (EvEmpty NsFolia name attrs :: l) -> parse_err (parse_elem O name attrs) = Ok x ->
  store_add d (fst x) (hd_error st) = (d1, Ok key) -> match st with top :: _ => attach_element d1 top key | [] => (d1, Ok tt) end = (d2, Ok u) ->
  add_attr_children d2 key (snd x) = (d3, Ok v) -> forest d3.
Proof.
  intros PI X S A B. pose proof (pinv_skip _ _ _ _ PI) as PS. destruct (tag_new _ _ _ _ attrs PI) as (ND & NEW); [eauto|]. pose proof PI as [F0 N0 O0 I0 X0].
  destruct (parse_elem_spec _ _ _ _ X) as (et & at_ & EX & IDS & _ & FL). rewrite EX in S.
  destruct (pinv_tag d st l attrs (mkElem et at_ [] None None) (hd_error st) d1 key PS ND NEW IDS eq_refl eq_refl S) as (EK & P1 & O1).
  destruct u, v. assert (P1' : pinv d1 st l). { eapply pinv_next; [exact P1|apply P1|apply grown_refl|reflexivity|intros k K; right; exact K|exact N0]. }
  assert (NK : ~ In key st). { pose proof (pi_nodup _ _ _ P1) as Q. inversion Q; assumption. }
  assert (P2 : pinv d2 st l /\ sh d2 key <> None).
  { destruct st as [|top st]; [injection A as <-; split; [exact P1'|apply (pi_open _ _ _ P1); left; reflexivity]|].
    assert (TL : top < sh_len d). { destruct (O0 top (or_introl eq_refl)) as (Q & _). destruct (sh d top) eqn:G; [eapply sh_lt, G|congruence]. }
    split; [eapply attach_pinv; [exact P1'|left; reflexivity|exact NK| |exact A]|].
    - intros AB. apply (old_not_above d d1 key F0 O1 (Nat.eq_le_incl _ _ (eq_sym EK)) top AB TL).
    - destruct (attach_get _ _ _ _ (f_linked _ (pi_forest _ _ _ P1)) A) as (_ & (ce & GC) & G & _). unfold sh. rewrite G, GC. discriminate. }
  destruct P2 as (P2 & XK). destruct (add_attr_children_forest key (snd x) FL d2 d3 (pi_forest _ _ _ P2)) as (F3 & G3 & I3); [exact XK|exact B|exact F3].
Qed.
Lemma empty_full O d st name attrs x d1 key d2 u d3 v : full_ok d -> parse_err (parse_elem O name attrs) = Ok x ->
  store_add d (fst x) (hd_error st) = (d1, Ok key) -> match st with top :: _ => attach_element d1 top key | [] => (d1, Ok tt) end = (d2, Ok u) ->
  add_attr_children d2 key (snd x) = (d3, Ok v) -> full_ok d3.
Proof.
  intros FO X S A B. destruct (parse_elem_guard normal O [EvEmpty NsFolia name attrs] NsFolia name attrs x (load_ok_normal _ _) (or_intror (or_introl eq_refl)) X) as (GX & GC).
  pose proof (store_add_prims normal d (fst x) (hd_error st) GX) as P1. rewrite S in P1. cbn [fst] in P1. pose proof (full_prims _ _ P1 FO) as F1.
  assert (F2 : full_ok d2).
  { destruct st as [|top st]; [injection A as <-; exact F1|]. pose proof (attach_p0 normal d1 top key) as Q. rewrite A in Q. exact (full_prims0 _ _ Q F1). }
  pose proof (add_attr_children_prims normal (snd x) GC d2 key) as P3. rewrite B in P3. exact (full_prims _ _ P3 F2).
Qed.
Lemma elements_step_settles O d st ev l : full_ok d -> pinv d st (ev :: l) -> tags_readable [ev] -> settlesS (fun fuel => elements_step fuel O d st ev).
Proof.
  intros FO P R. pose proof (pi_forest _ _ _ P) as F. destruct ev as [ns name attrs|ns name attrs|ns name|[t|]|[t|]|[t|]| |]; cbn [elements_step]; try (apply settlesS_const; discriminate).
  - destruct ns; try (apply settlesS_const; discriminate). apply settlesS_fixed.
    apply sbind_nf; [apply outcome_iff, parse_elem_out, (R NsFolia name); left; left; reflexivity|]. intros d1 x. apply sbind_nf; [apply map_err_nf, store_add_nf|].
    intros d2 key. apply sbind_nf; [apply add_attr_children_nf|]. intros; discriminate.
  - destruct ns; try (apply settlesS_const; discriminate).
    apply settlesS_pure; [apply settles_const, outcome_iff, parse_elem_out, (R NsFolia name); right; left; reflexivity|]. intros x n X. specialize (X n (Nat.le_refl n)).
    apply settlesS_bind; [apply settlesS_fixed, map_err_nf, store_add_nf|]. intros d1 key n1 H1. specialize (H1 n1 (Nat.le_refl n1)). apply map_err_ok in H1.
    apply settlesS_bind; [apply settlesS_fixed; destruct st; [discriminate|apply attach_nf]|]. intros d2 u n2 H2. specialize (H2 n2 (Nat.le_refl n2)). cbn beta in H2.
    apply settlesS_bind; [apply settlesS_fixed, add_attr_children_nf|]. intros d3 v n3 H3. specialize (H3 n3 (Nat.le_refl n3)).
    apply settlesS_bind; [apply post_add_stack_settles|intros; apply settlesS_const; discriminate].
    + eapply empty_full; eassumption.
    + apply fin_forest. eapply empty_forest; eassumption.
  - destruct ns; try (apply settlesS_const; discriminate). destruct st as [|key [|top st]]; try (apply settlesS_const; discriminate).
    apply settlesS_bind; [apply post_add_stack_settles; [exact FO|apply fin_forest, F]|]. intros d1 u n1 H1.
    destruct (get_elementdata d1 key) as [e|]; [|apply settlesS_const; discriminate]. apply settlesS_fixed. apply sbind_nf; [destruct (et_from_str name); discriminate|].
    intros d2 et. destruct (et_eqb (e_type e) et); [|discriminate]. apply sbind_nf; [apply attach_nf|]. intros; discriminate.
Qed.
Lemma loop_settles O l : tags_readable l -> forall d st, full_ok d -> pinv d st l -> settlesS (fun fuel => parse_elements_loop fuel O d st l).
Proof.
  induction l as [|ev l IH]; intros R d st FO P; cbn [parse_elements_loop]; [apply settlesS_const; discriminate|].
  apply settlesS_bind; [eapply elements_step_settles; [exact FO|exact P|eapply tags_hd, R]|]. intros d1 p n H. specialize (H n (Nat.le_refl n)).
  pose proof (elements_step_pinv _ _ _ _ _ _ _ _ P H) as P1. destruct p as [st1|]; [|apply settlesS_const; discriminate].
  apply IH; [eapply tags_tl, R| |exact P1]. pose proof (prims_normal_step n O d st ev) as Q. rewrite H in Q. exact (full_prims _ _ Q FO).
Qed.

(* ---------------------------------------------------------------- the loop does not panic *)
(* A feature needs a parent with an annotation type: [st] are the types of the open tags, innermost first. *)
Definition fits (t : ElementType) (st : list ElementType) : Prop :=
  t = ET_Feature -> match st with p :: _ => et_annotationtype p <> None | [] => True end.
Fixpoint placed (st : list ElementType) (l : list event) : Prop :=
  match l with
  | [] => True
  | EvStart NsFolia name _ :: r => forall t, et_from_str name = Some t -> fits t st /\ placed (t :: st) r
  | EvEmpty NsFolia name _ :: r => forall t, et_from_str name = Some t -> fits t st /\ placed st r
  | EvEnd NsFolia _ :: r => match st with _ :: ((_ :: _) as rest) => placed rest r | _ => True end
  | _ :: r => placed st r
  end.
Definition typed (d : document) (k : nat) (t : ElementType) : Prop := exists e, get_elementdata d k = Some e /\ e_type e = t.
Lemma typed_le a b k t : doc_le a b -> typed a k t -> typed b k t.
Proof. intros L (e & G & T). destruct (doc_le_elem _ _ _ _ L G) as (e' & G' & [K _ _]). exists e'. split; [exact G'|congruence]. Qed.
Lemma typed_prims a b k t : prims normal a b -> typed a k t -> typed b k t.
Proof. intros P. apply typed_le, prims_doc_le, P. Qed.
Lemma safe_forest d : full_ok d -> forest d -> safe d.
Proof. intros FO F. split; [exact FO|]. apply consistent_resolves, consistent_linked, f_linked, F. Qed.
Lemma shortcut_annotates t name : shortcut t name -> et_annotationtype t <> None.
Proof.
  intros (f & I & J & S). pose proof (all_et_forall (fun t => negb (existsb (fun a => match a with
      | AcceptElementType f => existsb (et_eqb f) (group_elementtypes EG_Feature) && match p_subset (props f) with Some _ => true | None => false end
      | _ => false end) (p_accepted_data (props t))) || match et_annotationtype t with Some _ => true | None => false end) ltac:(vm_compute; reflexivity) t) as K.
  cbv beta in K. apply orb_prop in K. destruct K as [K|K]; [|intros E; rewrite E in K; discriminate].
  exfalso. apply negb_true_iff in K. rewrite <- not_true_iff_false in K. apply K. apply existsb_exists. exists (AcceptElementType f). split; [exact I|]. rewrite S, andb_true_r.
  apply existsb_exists. exists f. split; [exact J|]. destruct (et_eqb_spec f f); congruence.
Qed.
Lemma add_attr_children_good key t l : (forall c, In c l -> feature_like c) -> (l <> [] -> et_annotationtype t <> None) ->
  forall d, safe d -> typed d key t -> good d (add_attr_children d key l).
Proof.
  intros FL AT. assert (FA : l = [] \/ et_annotationtype t <> None) by (destruct l; [auto|right; apply AT; discriminate]). clear AT.
  induction l as [|c l IH]; intros d S TY; cbn [add_attr_children]; [apply good_ret; [exact S|discriminate]|].
  destruct FA as [FA|FA]; [discriminate|]. destruct (FL c (or_introl eq_refl)) as (s & v & ->).
  assert (G1 : g_elem normal (e_type (feature_child s v)) (e_attribs (feature_child s v))) by (intros a [<-|[<-|[]]]; reflexivity).
  apply good_bind.
  - apply good_store_add; [exact S|exact G1| |discriminate|intros c [I|[]]; discriminate I]. intros _ p pe E G. injection E as <-. destruct TY as (e & G' & <-). congruence.
  - intros d1 ck E S1 _. pose proof (store_add_prims normal d (feature_child s v) (Some key) G1) as P1. rewrite E in P1. apply good_bind; [apply good_attach, S1|].
    intros d2 u E2 S2 _. pose proof (attach_p0 normal d1 key ck) as P2. rewrite E2 in P2. apply IH; [intros c I; apply FL; right; exact I|auto|exact S2|].
    eapply typed_prims; [apply lift, P2|]. eapply typed_prims; [exact P1|exact TY].
Qed.
Lemma good_map_err {A} d e (r : document * res A) : good d r -> good d (map_err e r).
Proof. intros (X & Y & Z). destruct r as [d1 [a|x| |]]; (split; [exact X|split; [exact Y|]]); cbn [map_err snd] in *; try discriminate. contradiction Z; reflexivity. Qed.
Lemma step_elem_good d st ts t own : safe d -> new_id d (mkElem t own [] None None) -> textual own -> Forall2 (typed d) st ts -> fits t ts ->
  good d (map_err EParse (store_add d (mkElem t own [] None None) (hd_error st))) /\
  forall d1 key, store_add d (mkElem t own [] None None) (hd_error st) = (d1, Ok key) -> prims normal d d1 /\ typed d1 key t.
Proof.
  intros S NI T TS FT. assert (G : good d (store_add d (mkElem t own [] None None) (hd_error st))).
  { apply good_store_add; [exact S|exact T| |discriminate|intros c []]. intros ET p pe E G. cbn [e_type] in ET. specialize (FT ET).
    destruct TS as [|k t0 st' ts' (e & G' & <-) TS]; [discriminate E|]. injection E as ->. congruence. }
  split; [apply good_map_err, G|].
  intros d1 key E. split.
  - pose proof (store_add_prims normal d (mkElem t own [] None None) (hd_error st) T) as Q. rewrite E in Q. exact Q.
  - destruct (store_add_spec d (mkElem t own [] None None) (hd_error st) d1 key (proj1 S) T NI E) as (n & G1 & _). eexists. split; [exact G1|reflexivity].
Qed.
Lemma reads_annotates O t attrs own fs : reads_attributes O t attrs own fs -> fs <> [] -> et_annotationtype t <> None.
Proof. intros R. induction R; auto. intros _. eapply shortcut_annotates. eassumption. Qed.
Lemma feature_children fs c : In c (map (fun p : string * string => feature_child (fst p) (snd p)) fs) -> feature_like c.
Proof. intros I. apply in_map_iff in I. destruct I as ((s & v) & <- & _). exists s, v. reflexivity. Qed.
Lemma elements_step_np fuel O d top st ts ev l : full_ok d -> pinv d (top :: st) (ev :: l) -> tags_readable [ev] -> Forall2 (typed d) (top :: st) ts -> placed ts (ev :: l) ->
  snd (elements_step fuel O d (top :: st) ev) <> Panic.
Proof.
  intros FO P R TS PL. pose proof (safe_forest d FO (pi_forest _ _ _ P)) as S.
  assert (Q : forall B (b : document * res B), good d b -> snd b <> Panic) by (intros B b G; apply G).
  destruct ev as [ns name attrs|ns name attrs|ns name|[t|]|[t|]|[t|]| |]; cbn [elements_step]; try discriminate.
  - destruct ns; try discriminate. apply Q. clear Q. apply good_pure; [exact S|apply outcome_iff, parse_elem_out, (R NsFolia name); left; left; reflexivity|]. intros x X.
    destruct (parse_elem_reads _ _ _ _ X) as (t & own & fs & ET & RA & -> & -> & T & ID). cbn [placed] in PL. destruct (PL t ET) as (FT & _).
    destruct (step_elem_good d (top :: st) ts t own S) as (G & H); auto; [eapply new_id_tag; [exact P|eauto|exact ID]|].
    apply good_bind; [exact G|]. intros d1 key E S1 _. apply map_err_ok in E. destruct (H _ _ E) as (P1 & T1).
    apply good_bind; [eapply add_attr_children_good; [apply feature_children| |exact S1|exact T1]|].
    { intros N. eapply reads_annotates; [exact RA|]. intros ->. apply N. reflexivity. }
    intros d2 u _ S2 _. apply good_ret; [exact S2|discriminate].
  - destruct ns; try discriminate. apply Q. clear Q. apply good_pure; [exact S|apply outcome_iff, parse_elem_out, (R NsFolia name); right; left; reflexivity|]. intros x X.
    destruct (parse_elem_reads _ _ _ _ X) as (t & own & fs & ET & RA & -> & -> & T & ID). cbn [placed] in PL. destruct (PL t ET) as (FT & _).
    destruct (step_elem_good d (top :: st) ts t own S) as (G & H); auto; [eapply new_id_tag; [exact P|eauto|exact ID]|].
    apply good_bind; [exact G|]. intros d1 key E S1 _. apply map_err_ok in E. destruct (H _ _ E) as (P1 & T1).
    apply good_bind; [apply good_attach, S1|]. intros d2 u E2 S2 _.
    assert (T2 : typed d2 key t). { pose proof (attach_p0 normal d1 top key) as Q. rewrite E2 in Q. eapply typed_prims; [apply lift, Q|exact T1]. }
    apply good_bind; [eapply add_attr_children_good; [apply feature_children| |exact S2|exact T2]|].
    { intros N. eapply reads_annotates; [exact RA|]. intros ->. apply N. reflexivity. }
    intros d3 v _ S3 _. apply good_bind; [apply good_post_add, S3|]. intros d4 w _ S4 _. apply good_ret; [exact S4|discriminate].
  - destruct ns; try discriminate. destruct st as [|top' st]; [discriminate|]. apply Q. clear Q. apply good_bind; [apply good_post_add, S|]. intros d1 u _ S1 _.
    destruct (get_elementdata d1 top) as [e|]; [|apply good_ret; [exact S1|discriminate]]. apply good_pure; [exact S1|destruct (et_from_str name); discriminate|]. intros et _.
    destruct (et_eqb (e_type e) et); [|apply good_ret; [exact S1|discriminate]]. apply good_bind; [apply good_attach, S1|]. intros d2 v _ S2 _. apply good_ret; [exact S2|discriminate].
Qed.
Lemma Forall2_typed d d' st ts : prims normal d d' -> Forall2 (typed d) st ts -> Forall2 (typed d') st ts.
Proof. intros P F. induction F; constructor; auto. eapply typed_prims; eassumption. Qed.
(* how the open tags go on *)
Lemma elements_step_types fuel O d top st ts ev l d' st' : full_ok d -> pinv d (top :: st) (ev :: l) -> Forall2 (typed d) (top :: st) ts -> placed ts (ev :: l) ->
  elements_step fuel O d (top :: st) ev = (d', Ok (PContinue st')) -> st' <> [] /\ exists ts', Forall2 (typed d') st' ts' /\ placed ts' l.
Proof.
  intros FO P TS PL H. pose proof (prims_normal_step fuel O d (top :: st) ev) as PR. rewrite H in PR. cbn [fst] in PR. pose proof (Forall2_typed _ _ _ _ PR TS) as TS'.
  assert (SAME : st' = top :: st -> placed ts l -> st' <> [] /\ exists ts', Forall2 (typed d') st' ts' /\ placed ts' l) by (intros -> K; split; [discriminate|eauto]).
  destruct ev as [ns name attrs|ns name attrs|ns name|[t|]|[t|]|[t|]| |];
    try (cbn [elements_step] in H; first [discriminate|injection H as _ <-; apply SAME; [reflexivity|exact PL]]).
  - destruct ns; try (cbn [elements_step] in H; injection H as _ <-; apply SAME; [reflexivity|exact PL]).
    destruct (start_step fuel O d d top st name attrs l d' (PContinue st') FO (follows_refl d) P H) as (t & own & fs & fl & E & ET & _ & _ & _ & _ & _ & K & _).
    injection E as ->. destruct (PL t ET) as (_ & PL'). split; [discriminate|]. exists (t :: ts). split; [constructor; [|exact TS']|exact PL'].
    unfold sh in K. destruct (get_elementdata d' (sh_len d)) as [e|] eqn:G; [|discriminate]. exists e. split; [exact G|]. injection K as K _. exact K.
  - destruct ns; try (cbn [elements_step] in H; injection H as _ <-; apply SAME; [reflexivity|exact PL]). cbn [elements_step] in H.
    apply sbind_ok in H. destruct H as (dz & x & X & H). injection X as <- X. destruct (parse_elem_reads _ _ _ _ X) as (t & own & fs & ET & _).
    destruct (PL t ET) as (_ & PL'). apply SAME; [|exact PL'].
    apply sbind_ok in H. destruct H as (d1 & key & _ & H). apply sbind_ok in H. destruct H as (d2 & u & _ & H). apply sbind_ok in H. destruct H as (d3 & v & _ & H).
    apply sbind_ok in H. destruct H as (d4 & w & _ & H). injection H as _ <-. reflexivity.
  - destruct ns; try (cbn [elements_step] in H; injection H as _ <-; apply SAME; [reflexivity|exact PL]). destruct st as [|top' st]; [discriminate H|].
    destruct (end_step fuel O d top top' st name l d' (PContinue st') P H) as (E & _). injection E as ->. split; [discriminate|].
    inversion TS' as [|? t0 ? ts0 _ TS0]; subst. exists ts0. split; [exact TS0|]. inversion TS0; subst. exact PL.
Qed.
Lemma loop_np fuel O l : tags_readable l -> forall d st ts, st <> [] -> full_ok d -> pinv d st l -> Forall2 (typed d) st ts -> placed ts l -> snd (parse_elements_loop fuel O d st l) <> Panic.
Proof.
  induction l as [|ev l IH]; intros R d [|top st] ts NE FO P TS PL; cbn [parse_elements_loop]; try discriminate; try congruence.
  apply sbind_np; [eapply elements_step_np; eauto using tags_hd|]. intros d1 [st1|] H; [|discriminate].
  destruct (elements_step_types _ _ _ _ _ _ _ _ _ _ FO P TS PL H) as (NE1 & ts1 & TS1 & PL1).
  pose proof (prims_normal_step fuel O d (top :: st) ev) as Q. rewrite H in Q.
  apply (IH (tags_tl _ _ R) d1 st1 ts1); auto; [exact (full_prims _ _ Q FO)|exact (elements_step_pinv _ _ _ _ _ _ _ _ P H)].
Qed.

(* ---------------------------------------------------------------- the whole document *)
Lemma doc_add_class_out d k c : outcome (snd (doc_add_class d k c)).
Proof.
  unfold doc_add_class. destruct (get_declaration d k) as [dec|]; [|apply outcome_err]. unfold d_add_class, sopt_add.
  destruct (ss_get_key _ c); [apply outcome_ok|]. unfold ss_add.
  destruct (smap_get _ c); [apply outcome_ok|]. destruct (_ <=? _)%N; [apply outcome_ok|apply outcome_err].
Qed.
Lemma apply_properties_out d p : outcome (snd (apply_properties d p)).
Proof.
  unfold apply_properties. apply outcome_sbind.
  - destruct (dp_processor p) as [pr|]; [|apply outcome_ok]. apply outcome_sbind; [apply add_processor_out|]. intros; apply outcome_ok.
  - intros d1 _ _. revert d1. induction (dp_declare p) as [|[t s] l IH]; intros d1; cbn [apply_declares]; [apply outcome_ok|].
    apply outcome_sbind; [apply outcome_iff; split; [apply declare_np|apply declare_nf]|]. intros d2 dk _. apply outcome_sbind; [|intros d3 u _; apply IH].
    destruct s as [s|]; [|apply outcome_ok]. destruct (s =? DEFAULT_TEXT_SET); [|apply outcome_ok]. apply outcome_sbind; [apply doc_add_class_out|]. intros; apply outcome_ok.
Qed.
Lemma parse_body_place O l : forall b r, parse_body O l = Ok (Some b, r) ->
  exists name attrs t x, suffix (EvStart NsFolia name attrs :: r) l /\ body_tag name t /\ parse_attributes O t attrs = Ok x /\ b = mkElem t (fst x) [] None None.
Proof.
  induction l as [|ev l IH]; intros b r; cbn; [discriminate|].
  assert (K : parse_body O l = Ok (Some b, r) -> exists name attrs t x, suffix (EvStart NsFolia name attrs :: r) (ev :: l) /\ body_tag name t /\ parse_attributes O t attrs = Ok x /\ b = mkElem t (fst x) [] None None).
  { intros H. apply IH in H. destruct H as (name & attrs & et & x & S & H). exists name, attrs, et, x. split; [apply suffix_cons, S|exact H]. }
  destruct ev; try exact K; try discriminate. destruct ns; try discriminate.
  destruct (name =? "text") eqn:E1; [|destruct (name =? "speech") eqn:E2; [|discriminate]].
  - apply String.eqb_eq in E1. subst name. destruct (parse_attributes O ET_Text attrs) as [x| | |] eqn:E; try discriminate. intros H. injection H as <- <-.
    exists "text", attrs, ET_Text, x. split; [apply suffix_refl|]. split; [unfold body_tag; auto|auto].
  - apply String.eqb_eq in E2. subst name. destruct (parse_attributes O ET_Speech attrs) as [x| | |] eqn:E; try discriminate. intros H. injection H as <- <-.
    exists "speech", attrs, ET_Speech, x. split; [apply suffix_refl|]. split; [unfold body_tag; auto|auto].
Qed.

(* nothing in a body is a feature without a described parent *)
Definition features_placed (l : list event) : Prop := forall a name attrs r t, l = a ++ EvStart NsFolia name attrs :: r -> body_tag name t -> placed [t] r.
Theorem C57_load_returns_partial : forall O p l, props_ok normal p -> tags_readable l -> NoDup (xml_ids l) -> features_placed l ->
  exists n v, (forall fuel, n <= fuel -> parse_document fuel O p l = v) /\ ((exists d, v = Ok d) \/ exists x, v = Err x).
Proof.
  intros O p l GP RD ND FP. change (exists n v, (forall fuel, n <= fuel -> parse_document fuel O p l = v) /\ outcome v).
  assert (RS : forall r, suffix r l -> tags_readable r).
  { intros r (a & ->) ns name attrs [I|I]; apply (RD ns name attrs); [left|right]; apply in_or_app; right; exact I. }
  assert (C : forall v, outcome v -> (forall fuel, parse_document fuel O p l = v) -> exists n v, (forall fuel, n <= fuel -> parse_document fuel O p l = v) /\ outcome v).
  { intros v V H. exists 0, v. auto. }
  unfold parse_document in *. fold (blank_doc p) in *.
  destruct (parse_root_out l RD (blank_doc p)) as [((d1 & l1) & R)|(x & R)]; [|apply (C (Err x)); [apply outcome_err|intros fuel; rewrite R; reflexivity]].
  rewrite R. cbn [rbind]. pose proof (proj1 (parse_root_suffix _ _ _ _ R)) as S1. rewrite R in C. cbn [rbind] in C.
  pose proof (parse_metadata_out l1 (RS _ S1) d1 ms_init) as MO. destruct (parse_metadata d1 ms_init l1) as [d2 r2] eqn:M. cbn [snd] in MO.
  destruct MO as [(l2 & ->)|(x & ->)]; [|apply (C (Err x)); [apply outcome_err|reflexivity]]. cbn [rbind] in *.
  pose proof (parse_metadata_suffix _ _ _ _ _ M) as S2. assert (S12 : suffix l2 l). { destruct S1 as (a & ->), S2 as (b & ->). exists (a ++ b). apply app_assoc. }
  destruct (parse_body_out O l2 (RS _ S12)) as [([[body|] l3] & B)|(x & B)]; rewrite B in *; cbn [rbind] in *;
    [|apply (C (Err EParse)); [apply outcome_err|reflexivity]|apply (C (Err x)); [apply outcome_err|reflexivity]].
  apply parse_body_place in B. destruct B as (name & attrs & t & x & S3 & BT & PA & ->).
  assert (S : suffix (EvStart NsFolia name attrs :: l3) l). { destruct S12 as (a & ->), S3 as (b & ->). exists (a ++ b). apply app_assoc. }
  destruct (parse_attributes_spec _ _ _ _ PA) as (TX & IDS & _).
  assert (HP : forall p l, parse_processor l = Ok p -> g_proc normal p) by exact (fun p0 l0 H => parse_processor_fresh _ _ H).
  pose proof (proj1 (parse_root_p0 normal _ _ _ _ R)) as FU1. pose proof (parse_metadata_p0 normal (go_decl _ normal_ok) HP l1 d1 ms_init) as FU2. rewrite M in FU2. cbn [fst] in FU2.
  pose proof (rtc_trans _ _ _ _ FU1 FU2) as FU. pose proof (prims0_len _ _ _ FU) as (L0 & IX). cbn in L0.
  assert (F2 : full_ok d2) by (eapply full_prims0; [exact FU|apply full_empty]).
  assert (NI : forall id, ~ has_id d2 id). { intros id Q. unfold has_id, get_element_key_by_id, st_id_to_key in Q. rewrite IX in Q. apply Q. reflexivity. }
  assert (P0 : pinv d2 [] l3 /\ NoDup (tag_ids attrs) /\ forall id, In id (tag_ids attrs) -> ~ In id (xml_ids l3)).
  { apply suffix_ids in S. destruct S as (a & S). rewrite S in ND. apply NoDup_app_inv in ND. destruct ND as (_ & ND & _). cbn [xml_ids] in ND. apply NoDup_app_inv in ND.
    destruct ND as (X1 & X2 & X3). split; [|split; [exact X1|exact X3]]. split; [apply forest_empty, L0|apply NoDup_nil|intros k0 []|intros id Q; destruct (NI id Q)|exact X2]. }
  destruct P0 as (P0 & X1 & X3).
  assert (G3 : good d2 (store_add d2 (mkElem t (fst x) [] None None) None)).
  { apply good_store_add; [apply safe_forest; [exact F2|apply P0]|exact TX|apply feature_fits_none|discriminate|intros c []]. }
  pose proof (store_add_nf d2 (mkElem t (fst x) [] None None) None) as N3. destruct (store_add d2 (mkElem t (fst x) [] None None) None) as [d3 [k|e3| |]] eqn:ST;
    [|apply (C (Err EParse)); [apply outcome_err|reflexivity]|destruct G3 as (_ & _ & G3); contradiction G3; reflexivity|contradiction N3; reflexivity].
  cbn [map_err sbind] in *.
  destruct (pinv_tag d2 [] l3 attrs (mkElem t (fst x) [] None None) None d3 k P0 X1 (fun id J => conj (NI id) (X3 id J)) IDS eq_refl eq_refl ST) as (EK & P3 & _).
  rewrite L0 in EK. subst k.
  pose proof (apply_properties_out d3 p) as AO. destruct (apply_properties d3 p) as [d4 r4] eqn:AP. cbn [snd] in AO.
  destruct AO as [(u & ->)|(e4 & ->)]; [|apply (C (Err EParse)); [apply outcome_err|reflexivity]]. cbn [map_err sbind] in *.
  assert (EL : doc_elements d4 = doc_elements d3). { pose proof (apply_properties_elements d3 p) as Q. rewrite AP in Q. exact Q. }
  pose proof (same_sh_elements d3 d4 EL) as SS.
  assert (PS : prims normal d2 d3). { pose proof (store_add_prims normal d2 (mkElem t (fst x) [] None None) None TX) as Q. rewrite ST in Q. exact Q. }
  assert (PA4 : prims normal d3 d4).
  { pose proof (apply_properties_prims normal (go_decl _ normal_ok) d3 p GP) as Q. rewrite AP in Q. apply Q. assert (F : full_ok d3) by (eapply full_prims; eassumption). apply F. }
  assert (F4 : full_ok d4) by (eapply full_prims; [exact PA4|eapply full_prims; eassumption]).
  assert (P4 : pinv d4 [0] l3) by (eapply pinv_next; [exact P3|eapply forest_same; [exact SS|apply P3]|apply same_grown, SS|apply SS|auto|apply P3]).
  assert (T4 : Forall2 (typed d4) [0] [t]).
  { constructor; [|constructor]. eapply typed_prims; [exact PA4|]. assert (N2 : new_id d2 (mkElem t (fst x) [] None None)).
    { intros id I. destruct (get_element_key_by_id d2 id) eqn:Q; [|reflexivity]. exfalso. apply (NI id). unfold has_id. rewrite Q. discriminate. }
    destruct (store_add_spec d2 (mkElem t (fst x) [] None None) None d3 0 F2 TX N2 ST) as (n & G & _). eexists. split; [exact G|reflexivity]. }
  assert (R3 : tags_readable l3) by (destruct S as (a & S); apply (RS l3); exists (a ++ [EvStart NsFolia name attrs]); rewrite <- app_assoc; exact S).
  assert (PL : placed [t] l3) by (destruct S as (a & S); exact (FP _ _ _ _ _ S BT)).
  unfold parse_elements in *. destruct (st_items (doc_elements d4)) as [|e0 l0]; [apply (C (Err EInternal)); [apply outcome_err|reflexivity]|].
  destruct (loop_settles O l3 R3 d4 [0] F4 P4) as (n & d5 & v & V & H). exists n, (rbind v (fun _ => Ok d5)). split.
  - intros fuel L. rewrite (H fuel L). destruct v; reflexivity.
  - pose proof (loop_np n O l3 R3 d4 [0] [t] ltac:(discriminate) F4 P4 T4 PL) as NP. rewrite (H n (Nat.le_refl n)) in NP. cbn [snd] in NP.
    destruct v; cbn [rbind]; [apply outcome_ok|apply outcome_err|contradiction NP; reflexivity|contradiction V; reflexivity].
Qed.
Print Assumptions C57_load_returns_partial.

(* ---------------------------------------------------------------- not every load returns *)
(* an element that is its own first child keeps the search busy for ever *)
Lemma find_spins d p k e f : get_elementdata d k = Some e -> e_data_at e 0 = Some (DElement k) -> matches (sp_sel p) d (DElement k) = Ok false ->
  rec_eval (sp_rec p) (e_type e) = true -> sp_inclusive p = false -> matchable (sp_sel p) = true ->
  forall fuel st rest, ss_stack st = (k, 0) :: rest -> sel_find fuel d p st f = OutOfFuel.
Proof.
  intros G A M R I MA. induction fuel as [|fuel IH]; intros st rest E; cbn [sel_find]; [reflexivity|].
  unfold sel_step. rewrite MA, I. cbn [negb andb]. rewrite andb_false_r. unfold sel_advance. cbn [ss_stack ss_iteration ss_returned ss_offset].
  rewrite E, G, A, R, M. eapply IH. reflexivity.
Qed.
Lemma layer_spins fuel d k e : get_elementdata d k = Some e -> e_key e = Some k -> e_data_at e 0 = Some (DElement k) -> group_contains EG_Span (e_type e) = false ->
  layer_declaration fuel d e = OutOfFuel.
Proof.
  intros G K A S. unfold layer_declaration. rewrite K. cbn [rbind expect ok_or]. change (from_query d layer_query) with (Ok (match from_query d layer_query with Ok s => s | _ => sel_default end)).
  eapply (find_spins d _ k e); [exact G|exact A| |reflexivity|reflexivity|reflexivity|reflexivity].
  cbn -[group_contains]. rewrite G, S. reflexivity.
Qed.
Definition any_oracle : oracle := mkOracle (fun _ => None) (fun _ => "0.5").
Definition nested_layers : list event := [EvStart NsFolia "entities" [xa "xml:id" "x"]; EvEmpty NsFolia "entities" [xa "xml:id" "x"]; EvEnd NsFolia "entities"].
(* <entities xml:id="x"><entities xml:id="x"/></entities> is never loaded *)
Theorem C57_repeated_id_refuted : forall fuel, parse_document fuel any_oracle no_props (ex_file nested_layers) = OutOfFuel.
Proof.
  intros fuel. lazy -[layer_declaration]. match goal with |- context [layer_declaration fuel ?d ?e] => rewrite (layer_spins fuel d 1 e) by reflexivity end. reflexivity.
Qed.
Print Assumptions C57_repeated_id_refuted.
(* a tag with a repeated or malformed attribute *)
Theorem C57_malformed_attribute_refuted : forall fuel, parse_document fuel any_oracle no_props (ex_file [EvEmpty NsFolia "s" [xa "xml:id" "s.1"; None]]) = Panic.
Proof. intros fuel. lazy. reflexivity. Qed.
Print Assumptions C57_malformed_attribute_refuted.
(* an attribute of the root element whose value cannot be decoded *)
Theorem C57_undecodable_root_refuted : forall fuel, parse_document fuel any_oracle no_props [EvStart NsFolia "FoLiA" [Some (mkXA "xml:id" None)]] = Panic.
Proof. intros fuel. lazy. reflexivity. Qed.
Print Assumptions C57_undecodable_root_refuted.
(* a feature directly in the body *)
Theorem C57_stray_feature_refuted : forall fuel, parse_document fuel any_oracle no_props (ex_file [EvEmpty NsFolia "feat" [xa "subset" "s"; xa "class" "c"]]) = Panic.
Proof. intros fuel. lazy. reflexivity. Qed.
Print Assumptions C57_stray_feature_refuted.
(* the hypotheses hold of a file with features in their place and a foreign tag *)
Definition placed_events : list event :=
  [EvStart NsFolia "s" [xa "xml:id" "s.1"]; EvStart NsFolia "w" [xa "xml:id" "w.1"]; EvStart NsFolia "pos" [xa "class" "N"; xa "head" "noun"];
   EvEmpty NsFolia "feat" [xa "subset" "s"; xa "class" "c"]; EvEnd NsFolia "pos"; EvText (Some "x"); EvEmpty NsNone "b" []; EvEnd NsFolia "w"; EvEnd NsFolia "s"].
Example C57_nonvacuous : props_ok normal no_props /\ tags_readable (ex_file placed_events) /\ NoDup (xml_ids (ex_file placed_events)) /\ features_placed (ex_file placed_events) /\
  (exists d, parse_document fuel1 any_oracle no_props (ex_file placed_events) = Ok d) /\
  (exists x, parse_document fuel1 any_oracle no_props (ex_file (placed_events ++ [EvStart NsFolia "w" []])) = Err x).
Proof.
  split; [exact no_props_ok|]. split; [|split; [|split; [|split]]].
  - intros ns name attrs I. cbn in I. decompose [or] I; try contradiction; match goal with H : _ = _ |- _ => inversion H; subst end;
      intros x J; cbn in J; decompose [or] J; try contradiction; subst; eexists; eexists; reflexivity.
  - cbn. repeat (constructor; [cbn; intuition discriminate|]). constructor.
  - intros a name attrs r t E BT. cbn in E.
    repeat (destruct a as [|? a]; [cbn in E; first [discriminate E|injection E as E1 E2 E3; subst; destruct BT as [(B & ->)|(B & ->)]; try discriminate B]|cbn in E; injection E as _ E]).
    cbn. intros t0 E0. injection E0 as <-. split; [discriminate|]. intros t0 E0. injection E0 as <-. split; [discriminate|]. intros t0 E0. injection E0 as <-. split; [discriminate|].
    intros t0 E0. injection E0 as <-. split; [discriminate|]. exact I.
    destruct a; discriminate E.
  - eexists. vm_compute. reflexivity.
  - eexists. vm_compute. reflexivity.
Qed.
