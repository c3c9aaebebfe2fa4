(* Adding elements returns (C16): no panic and no endless loop *)
From Coq Require Import String List Bool Arith NArith Lia.
From Verif Require Import Base Types SpecTable Attrib Element Store Metadata Document Select DocOps Xml Parser History BaseFacts TypesFacts StoreFacts Spec
  FrameFacts InvFacts DocFacts Examples StoreThms InternFacts EncodeFacts LinkFacts TreeFacts ForestFacts SelSpec SelectFacts PropsEncode PropsLinks PropsSelect NoPanic Returns.
Import ListNotations.
Open Scope string_scope.
Open Scope list_scope.

(* the call comes back, with a value or an error: from some fuel on its outcome no longer depends on the fuel *)
Definition returns {A} (f : nat -> document * res A) : Prop :=
  exists n d v, (forall fuel, n <= fuel -> f fuel = (d, v)) /\ ((exists a, v = Ok a) \/ (exists x, v = Err x)).
(* the parent, if it exists, has an annotation type; needed for features only *)
Definition may_get_feature (d : document) (p : nat) (e : elementdata) : Prop :=
  e_type e = ET_Feature -> forall pe, get_elementdata d p = Some pe -> et_annotationtype (e_type pe) <> None.

Lemma settled_returns {A} d0 (f : nat -> document * res A) : settlesS f -> (forall fuel, good d0 (f fuel)) -> returns f.
Proof.
  intros (n & d & v & V & H) G. exists n, d, v. split; [exact H|]. destruct (G n) as (_ & _ & NP). rewrite (H n (Nat.le_refl n)) in NP. cbn in NP.
  destruct v; [left; eauto|right; eauto|congruence|congruence].
Qed.
Lemma tidy_safe d : tidy d -> safe d.
Proof. intros T. split; [apply reachable_full, tidy_reachable, T|]. apply consistent_resolves, C18_links_agree_partial, T. Qed.

(* ================================================================ C16 *)
(* For documents made with care and elements with textual attributes and new IDs. Missing: features under a parent without
   annotation type, elements mixing textual and encoded attributes, and IDs used twice; each of them refutes the full
   claim, see below. *)
Theorem C16_adding_returns_partial : forall d e, tidy d -> built e -> fresh_for d e ->
  returns (fun fuel => add_element fuel d e) /\
  (forall p, get_elementdata d p <> None -> may_get_feature d p e -> returns (fun fuel => add_element_to fuel d p e)) /\
  (forall p, may_get_feature d p e -> returns (fun fuel => annotate fuel d p e)) /\
  returns (fun fuel => annotate_span fuel d e).
Proof.
  intros d e T B FR. pose proof (tidy_safe d T) as S. pose proof (tidy_forest d T) as F. assert (N : new_element e) by apply FR. split; [|split; [|split]].
  - eapply settled_returns; [apply add_element_settles; assumption|]. intros fuel. apply good_add_element; assumption.
  - intros p HP MF. eapply settled_returns; [apply add_element_to_settles; assumption|]. intros fuel. apply good_add_element_to; auto.
    intros TF. destruct (get_elementdata d p) as [pe|] eqn:G; [|congruence]. exists pe. split; [reflexivity|]. apply MF; auto.
  - intros p MF. eapply settled_returns; [apply annotate_settles; assumption|]. intros fuel. apply good_annotate; auto.
  - eapply settled_returns; [apply annotate_span_settles; assumption|]. intros fuel. apply good_annotate_span; assumption.
Qed.
Print Assumptions C16_adding_returns_partial.
(* The IDs need not be new, and the document need only have links that resolve, for the absence of panics. *)
Theorem C16_no_panic_partial : forall fuel d e, reachable normal d -> consistent d -> built e -> new_element e ->
  snd (add_element fuel d e) <> Panic /\
  (forall p, get_elementdata d p <> None -> may_get_feature d p e -> snd (add_element_to fuel d p e) <> Panic) /\
  (forall p, may_get_feature d p e -> snd (annotate fuel d p e) <> Panic) /\
  snd (annotate_span fuel d e) <> Panic.
Proof.
  intros fuel d e R C B N. assert (S : safe d) by (split; [apply reachable_full, R|apply consistent_resolves, C]). split; [|split; [|split]].
  - apply (good_add_element fuel d e S B N).
  - intros p HP MF. apply (good_add_element_to fuel d p e S B N). intros TF. destruct (get_elementdata d p) as [pe|] eqn:G; [|congruence]. exists pe. split; [reflexivity|]. apply MF; auto.
  - intros p MF. apply (good_annotate fuel d p e S B N MF).
  - apply (good_annotate_span fuel d e S B N).
Qed.
Print Assumptions C16_no_panic_partial.
(* both outcomes occur: an entity over two words, a reference to a word that does not exist *)
Lemma builtb_spec e : (fix ok (e : elementdata) : bool := match e with mkElem _ a l _ _ => forallb (fun x => negb (decodable x)) a &&
  (fix go (l : list datatype) : bool := match l with [] => true | DAddElement c :: r => ok c && go r | _ :: r => go r end) l end) e = true -> built e.
Proof.
  induction e as [e IH] using elem_ind. destruct e as [t a l key par]. cbn [e_data] in IH. intros H. apply andb_prop in H. destruct H as (A & L). constructor.
  - intros x I. cbn in I. rewrite forallb_forall in A. specialize (A _ I). apply negb_true_iff in A. exact A.
  - cbn. intros c I. clear A. induction l as [|x l IHl]; [destruct I|]. inversion IH as [|x' l' HX HL]; subst. destruct I as [->|I].
    + apply HX. apply andb_prop in L. apply L.
    + apply IHl; auto. destruct x; try exact L. apply andb_prop in L. apply L.
Qed.
Example C16_nonvacuous : tidy ex_doc /\ built (ex_span "loc" ["w.1"; "w.2"]) /\ fresh_for ex_doc (ex_span "loc" ["w.1"; "w.2"]) /\
  (exists d1 k, annotate_span fuel1 ex_doc (ex_span "loc" ["w.1"; "w.2"]) = (d1, Ok k)) /\
  built (ex_span "loc" ["w.77"; "w.1"]) /\ fresh_for ex_doc (ex_span "loc" ["w.77"; "w.1"]) /\
  (exists d1 x, add_element_to fuel1 ex_doc 12 (ex_span "loc" ["w.77"; "w.1"]) = (d1, Err x)).
Proof.
  split; [exact ex_tidy|]. split; [apply builtb_spec; vm_compute; reflexivity|]. split; [apply freshb_spec; vm_compute; reflexivity|]. split; [eexists _, _; vm_compute; reflexivity|].
  split; [apply builtb_spec; vm_compute; reflexivity|]. split; [apply freshb_spec; vm_compute; reflexivity|]. eexists _, _; vm_compute; reflexivity.
Qed.

(* a feature under the text body *)
Definition ex_feature : elementdata := e_attr ET_Feature [A_Subset "a"; A_Class "b"].
Theorem C16_no_panic_feature_refuted : exists d e p, tidy d /\ built e /\ fresh_for d e /\ get_elementdata d p <> None /\
  forall fuel, snd (add_element_to fuel d p e) = Panic.
Proof.
  exists ex_doc, ex_feature, 0. split; [exact ex_tidy|]. split; [apply builtb_spec; vm_compute; reflexivity|]. split; [apply freshb_spec; vm_compute; reflexivity|].
  split; [vm_compute; discriminate|]. intros fuel. vm_compute. reflexivity.
Qed.
Print Assumptions C16_no_panic_feature_refuted.
(* an element with an encoded and a textual attribute *)
Theorem C16_no_panic_mixed_refuted : exists d e p, tidy d /\ fresh_for d e /\ get_elementdata d p <> None /\
  (forall fuel, snd (add_element_to fuel d p e) = Panic) /\ (forall fuel, snd (add_element fuel d e) = Panic).
Proof.
  exists ex_doc, (e_attr ET_PosAnnotation [A_DeclarationRef 0; A_Class "noun"]), 3. split; [exact ex_tidy|]. split; [apply freshb_spec; vm_compute; reflexivity|].
  split; [vm_compute; discriminate|]. split; intros fuel; vm_compute; reflexivity.
Qed.
Print Assumptions C16_no_panic_mixed_refuted.
(* an entity containing a word reference with the same ID: the reference becomes its own parent, and looking for the span
   annotation above it never ends *)
Lemma anc_loop d s k e : get_elementdata d k = Some e -> e_parent e = Some k -> matches s d (DElement k) = Ok false -> forall fuel, anc_next fuel d s k = OutOfFuel.
Proof. intros G P M. induction fuel as [|fuel IH]; [reflexivity|]. cbn [anc_next]. rewrite G, P, M, G. exact IH. Qed.
Lemma link_loop d k e r : get_elementdata d k = Some e -> e_type e = ET_WordReference -> attribs_last_idref (e_attribs e) None = Some r ->
  matches span_selector (upd_element d k (e_set_parent (Some k))) (DElement k) = Ok false ->
  forall fuel rest, snd (link_children fuel d k (k :: rest)) = OutOfFuel.
Proof.
  intros G T AT M fuel rest. cbn [link_children].
  assert (P : snd (post_add fuel (upd_element d k (e_set_parent (Some k))) k None) = OutOfFuel).
  { assert (G' : get_elementdata (upd_element d k (e_set_parent (Some k))) k = Some (e_set_parent (Some k) e)) by (rewrite get_upd_element, Nat.eqb_refl, G; reflexivity).
    unfold post_add. rewrite G'. 
    replace (e_type (e_set_parent (Some k) e)) with ET_WordReference by (rewrite <- T; destruct e; reflexivity). unfold post_add_wref.
    replace (e_attribs (e_set_parent (Some k) e)) with (e_attribs e) by (destruct e; reflexivity). rewrite AT.
    rewrite (anc_loop _ _ _ _ G' (eq_trans (match e with mkElem _ _ _ _ _ => eq_refl end) eq_refl) M). reflexivity. }
  destruct (post_add _ _ _ _) as [d1 v]. cbn in P. subst v. reflexivity.
Qed.
Definition ex_same_id : elementdata := e_add_element (e_attr ET_Entity [A_Id "x"; A_Set "nerset"; A_Class "loc"]) (e_attr ET_WordReference [A_Id "x"; A_Idref "w.1"]).
Theorem C16_adding_returns_refuted : exists d e p, tidy d /\ built e /\ new_element e /\ get_elementdata d p <> None /\
  (forall id, In id (ids_in e) -> get_element_key_by_id d id = None) /\ forall fuel, snd (add_element_to fuel d p e) = OutOfFuel.
Proof.
  exists ex_doc, ex_same_id, 12. split; [exact ex_tidy|]. split; [apply builtb_spec; vm_compute; reflexivity|]. split; [apply new_elementb_spec; vm_compute; reflexivity|].
  split; [vm_compute; discriminate|]. split; [intros id [<-|[<-|[]]]; vm_compute; reflexivity|]. intros fuel.
  assert (A : exists dA lc, add_children fuel ex_doc ex_same_id = (dA, Ok (lc, Some [17])) /\ exists dB e r, map_err EInternal (store_add dA lc (Some 12)) = (dB, Ok 17) /\
    get_elementdata dB 17 = Some e /\ e_type e = ET_WordReference /\ attribs_last_idref (e_attribs e) None = Some r /\
    matches span_selector (upd_element dB 17 (e_set_parent (Some 17))) (DElement 17) = Ok false).
  { eexists _, _. split; [vm_compute; reflexivity|]. eexists _, _, _. split; [vm_compute; reflexivity|]. split; [vm_compute; reflexivity|]. split; [reflexivity|]. split; [reflexivity|]. vm_compute. reflexivity. }
  destruct A as (dA & lc & A & dB & e & r & B & G & TY & AT & M). unfold add_element_to. rewrite A. cbn [sbind fst snd opt_list]. rewrite B. cbn [sbind].
  pose proof (link_loop dB 17 e r G TY AT M fuel []) as L. destruct (link_children fuel dB 17 [17]) as [dC v]. cbn in L. subst v. reflexivity.
Qed.
Print Assumptions C16_adding_returns_refuted.
