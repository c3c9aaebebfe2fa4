(* Span references kept with an element always refer to stored elements: an invariant of every operation that is
   given new element values (LIBRARY: no definition here models code). *)
From Coq Require Import String List Bool Arith NArith Lia.
From Verif Require Import Base Types SpecTable Attrib Element Store Metadata Document Select DocOps Xml Parser.
From Verif Require Import BaseFacts StoreFacts History Spec FrameFacts DocFacts StoreThms InvFacts LinkFacts TreeFacts ForestFacts SelSpec SelectFacts NoPanic.
Import ListNotations.

Definition spans_ok (d : document) : Prop := forall k e, get_elementdata d k = Some e ->
  e_key e = Some k /\ forall s, In (DSpanReference s) (e_data e) -> s < sh_len d.
Definition spreads (a b : document) : Prop := spans_ok a -> spans_ok b.

Lemma spr_refl d : spreads d d. Proof. intros H; exact H. Qed.
Lemma spr_trans a b c : spreads a b -> spreads b c -> spreads a c. Proof. unfold spreads; auto. Qed.
Lemma spr_bind {A B} d (r : document * res A) (f : document -> A -> document * res B) :
  spreads d (fst r) -> (forall s a, r = (s, Ok a) -> spreads s (fst (f s a))) -> spreads d (fst (sbind r f)).
Proof. intros H K. destruct r as [s [a| | |]]; cbn in *; try exact H. eapply spr_trans; [exact H|]. apply K. reflexivity. Qed.
Lemma spr_pure {A B} d (r : res A) (f : document -> A -> document * res B) :
  (forall a, r = Ok a -> spreads d (fst (f d a))) -> spreads d (fst (sbind (d, r) f)).
Proof. intros K. destruct r as [a| | |]; cbn; try apply spr_refl. apply K. reflexivity. Qed.
Lemma spr_map_err {A} d e (r : document * res A) : spreads d (fst r) -> spreads d (fst (map_err e r)).
Proof. rewrite map_err_fst. auto. Qed.
Lemma spr_forget {A} d (r : document * res A) : spreads d (fst r) -> spreads d (fst (forget r)).
Proof. destruct r as [s [a| | |]]; cbn; auto. Qed.
Lemma spr_same d d' : doc_elements d' = doc_elements d -> spreads d d'.
Proof. intros E H k e. unfold get_elementdata, sh_len. rewrite E. apply H. Qed.

Lemma spr_upd d k f : (forall e, e_key (f e) = e_key e) ->
  (forall e s, In (DSpanReference s) (e_data (f e)) -> In (DSpanReference s) (e_data e) \/ s < sh_len d) -> spreads d (upd_element d k f).
Proof.
  intros K D H j e. rewrite get_upd_element, upd_len. destruct (Nat.eqb_spec j k) as [->|N]; [|apply H].
  destruct (get_elementdata d k) as [x|] eqn:G; [|discriminate]. cbn. intros E. injection E as <-. destruct (H _ _ G) as (A & B).
  split; [rewrite K; exact A|]. intros s I. destruct (D _ _ I); auto.
Qed.
Lemma spr_parent d k p : spreads d (upd_element d k (e_set_parent p)).
Proof. apply spr_upd; intros [ty a l key par]; cbn; auto. Qed.
Lemma spr_push d k x : (forall s, x = DSpanReference s -> s < sh_len d) -> spreads d (upd_element d k (fun e => e_push e x)).
Proof.
  intros X. apply spr_upd; intros [ty a l key par]; cbn; auto. intros s I. apply in_app_or in I. destruct I as [I|[I|[]]]; auto.
Qed.
Lemma in_remove_nth {A} (x : A) l : forall n, In x (remove_nth n l) -> In x l.
Proof. induction l as [|y l IH]; intros [|n]; cbn; auto. intros [->|I]; auto. right. eapply IH, I. Qed.
Lemma spr_unlist d k c : spreads d (upd_element d k (e_unlist c)).
Proof.
  apply spr_upd; intros e; unfold e_unlist; destruct (e_index e c); auto.
  intros s I. left. eapply in_remove_nth, I.
Qed.
Lemma spr_attach d p c : spreads d (fst (attach_element d p c)).
Proof.
  unfold attach_element. destruct (get_elementdata d p); [|apply spr_refl]. destruct (get_elementdata d c) as [ce|]; [|apply spr_refl]. cbn.
  assert (Q : spreads d (upd_element (upd_element d c (e_set_parent (Some p))) p (fun e => e_push e (DElement c)))).
  { eapply spr_trans; [apply spr_parent|apply spr_push; discriminate]. }
  destruct (e_parent ce); [|exact Q]. eapply spr_trans; [exact Q|apply spr_unlist].
Qed.
Lemma spr_detach d c : spreads d (fst (detach_element d c)).
Proof.
  unfold detach_element. destruct (get_elementdata d c) as [ce|]; [|apply spr_refl]. cbn.
  destruct (e_parent ce); [|apply spr_parent]. eapply spr_trans; [apply spr_parent|apply spr_unlist].
Qed.
Lemma first_match_has d s l k : first_match d s l = Ok (Some k) -> has d k.
Proof.
  induction l as [|x l IH]; cbn [first_match]; [discriminate|]. intros H. apply rbind_ok in H. destruct H as (m & M & H). destruct m; [|auto].
  injection H as ->. unfold has. intros G. enough (X : matches s d (DElement k) = Ok false) by (rewrite X in M; discriminate M). clear M IH.
  induction s as [s IH] using selector_ind'. rewrite matches_eq. unfold this_matches. rewrite G. destruct (_ && _); destruct (s_next s) as [n|]; cbn; auto.
Qed.
Lemma spr_post_add fuel d k st : spreads d (fst (post_add fuel d k st)).
Proof.
  intros S. revert S. unfold post_add. destruct (get_elementdata d k) as [e|]; [|apply spr_refl].
  assert (LY : spreads d (fst (if group_contains EG_Layer (e_type e) && negb (e_has_attrib e AB_SET)
             then let! d0, dk := (d, layer_declaration fuel d e) in
                  match dk with
                  | Some dk0 => (upd_element d0 k (fun x => e_with_attribs x [A_DeclarationRef dk0]), Ok tt)
                  | None => (d0, Ok tt)
                  end
             else (d, Ok tt)))).
  { destruct (_ && _); [|apply spr_refl]. apply spr_pure. intros [dk|] _; [|apply spr_refl]. apply spr_upd; intros [ty a l key par]; cbn; auto. }
  destruct (e_type e); try exact LY. unfold post_add_wref. destruct (attribs_last_idref (e_attribs e) None) as [id|]; [|apply spr_refl].
  intros S. revert S. apply spr_pure. intros [sk|] A; [|apply spr_refl]. intros S. revert S. apply spr_pure. intros [tk|] _; [|apply spr_refl]. cbn [fst].
  intros S. revert S. intros S. refine (spr_push d tk (DSpanReference sk) _ S). intros s E. injection E as <-.
  assert (HS : has d sk). 
  { destruct st as [st|]; [eapply first_match_has, A|]. apply rbind_ok in A. destruct A as ([a|] & A & B); [|discriminate].
    apply rbind_ok in B. destruct B as (b & B & C). injection C as ->. pose proof (anc_next_has _ _ _ _ _ A) as HA. unfold has in HA. unfold key_of in B.
    destruct (get_elementdata d a) as [x|] eqn:G; [|congruence]. destruct (S _ _ G) as (K & _). rewrite K in B. cbn in B. injection B as <-. unfold has. congruence. }
  unfold has, get_elementdata in HS. destruct (st_get (doc_elements d) sk) eqn:G; [|congruence]. apply st_get_lt in G. exact G.
Qed.
Lemma spr_link fuel p ks : forall d, spreads d (fst (link_children fuel d p ks)).
Proof.
  induction ks as [|k ks IH]; intros d; cbn [link_children]; [apply spr_refl|]. cbv zeta. eapply spr_trans; [apply (spr_parent d k (Some p))|].
  apply spr_bind; [apply spr_post_add|]. intros; apply IH.
Qed.
Definition no_spans (l : list datatype) : Prop := forall s, ~ In (DSpanReference s) l.
Lemma spr_store d e ctx : no_spans (e_data e) -> spreads d (fst (store_add d e ctx)).
Proof.
  intros NS H. pose proof (store_add_cases d e ctx) as C. pose proof (encode_elements d e ctx) as EE. pose proof (encode_value d e ctx) as EV. revert C.
  generalize (fst (store_add d e ctx)) (snd (store_add d e ctx)). intros d2 r C.
  destruct C as [d1 e1 id k E I J|d1 e1 s E N' B IT IX|d1 e1 E N' B|d1 r E NR]; rewrite E in EE; cbn [fst] in EE; try (eapply spr_same; [exact EE|exact H]).
  intros j x. unfold get_elementdata, sh_len. docs_g. rewrite (st_get_snoc _ _ _ _ IT).
  assert (L : st_len s = S (st_len (doc_elements d))) by (unfold st_len; rewrite IT, app_length; cbn; lia). rewrite L.
  destruct (Nat.eqb_spec j (st_len (doc_elements d))) as [->|N].
  - intros Q. injection Q as <-. destruct (EV _ _ E) as (V1 & V2 & V3 & V4 & V5). destruct e1 as [ty a l key par]. cbn in *. subst l. split; [reflexivity|]. intros s0 Q. destruct (NS _ Q).
  - intros G. destruct (H _ _ G) as (A & Q). split; [exact A|]. intros s0 K. specialize (Q _ K). unfold sh_len in Q. lia.
Qed.
Lemma spr_data fuel e : new_element e -> forall d, spreads d (fst (add_data fuel d (e_data e))) /\
  forall d1 x, add_data fuel d (e_data e) = (d1, Ok x) -> no_spans (fst x).
Proof.
  induction e as [e IH] using elem_ind. intros N. inversion N as [e' _ _ NS NC]; subst. clear N.
  induction IH as [|x l Hx Hl IHl]; intros d; cbn [add_data].
  - split; [apply spr_refl|]. intros d1 x E. injection E as <- <-. intros s [].
  - assert (R : forall d, spreads d (fst (add_data fuel d l)) /\ forall d1 x, add_data fuel d l = (d1, Ok x) -> no_spans (fst x)).
    { apply IHl; [intros k I; apply (NS k); right; exact I|intros c I; apply NC; right; exact I]. }
    destruct x as [s|k|s|k|c].
    + split; [apply spr_bind; [apply R|intros; apply spr_refl]|]. intros d1 x E. apply sbind_ok in E. destruct E as (d2 & y & E & F). injection F as <- <-.
      destruct (R d) as (_ & Q). specialize (Q _ _ E). intros s0 [I|I]; [discriminate|exact (Q _ I)].
    + split; [apply spr_bind; [apply R|intros; apply spr_refl]|]. intros d1 x E. apply sbind_ok in E. destruct E as (d2 & y & E & F). injection F as <- <-.
      destruct (R d) as (_ & Q). specialize (Q _ _ E). intros s0 [I|I]; [discriminate|exact (Q _ I)].
    + split; [apply spr_bind; [apply R|intros; apply spr_refl]|]. intros d1 x E. apply sbind_ok in E. destruct E as (d2 & y & E & F). injection F as <- <-.
      destruct (R d) as (_ & Q). specialize (Q _ _ E). intros s0 [I|I]; [discriminate|exact (Q _ I)].
    + destruct (NS k). left. reflexivity.
    + cbn in Hx. specialize (Hx (NC c (or_introl eq_refl))).
      assert (AC : forall d, spreads d (fst (add_children fuel d c)) /\ forall d1 x, add_children fuel d c = (d1, Ok x) -> no_spans (e_data (fst x))).
      { pose proof (NC c (or_introl eq_refl)) as NN. inversion NN as [e' _ _ NSc _]; subst. intros d0. rewrite add_children_eq. destruct (existsb is_add (e_data c)) eqn:EX.
        - split; [apply spr_bind; [apply Hx|intros; apply spr_refl]|]. intros d1 x E. apply sbind_ok in E. destruct E as (d2 & y & E & F). injection F as <- <-. eapply Hx, E.
        - split; [apply spr_refl|]. intros d1 x E. injection E as <- <-. destruct c; exact NSc. }
      split.
      * apply spr_bind; [apply AC|]. intros d1 x E. apply spr_bind; [apply spr_store; eapply AC, E|]. intros d2 ck _. apply spr_bind; [apply spr_link|].
        intros d3 _ _. apply spr_bind; [apply R|intros; apply spr_refl].
      * intros d1 x E. apply sbind_ok in E. destruct E as (d2 & y & _ & E). apply sbind_ok in E. destruct E as (d3 & ck & _ & E). apply sbind_ok in E. destruct E as (d4 & u & _ & E).
        apply sbind_ok in E. destruct E as (d5 & z & E & F). injection F as <- <-. destruct (R d4) as (_ & Q). specialize (Q _ _ E). intros s0 [I|I]; [discriminate|exact (Q _ I)].
Qed.

Lemma spr_children fuel e : new_element e -> forall d, spreads d (fst (add_children fuel d e)) /\ forall d1 x, add_children fuel d e = (d1, Ok x) -> no_spans (e_data (fst x)).
Proof.
  intros N d. inversion N as [e' _ _ NS _]; subst. rewrite add_children_eq. destruct (existsb is_add (e_data e)) eqn:EX.
  - destruct (spr_data fuel e N d) as (A & B). split; [apply spr_bind; [exact A|intros; apply spr_refl]|].
    intros d1 x E. apply sbind_ok in E. destruct E as (d2 & y & E & F). injection F as <- <-. eapply B, E.
  - split; [apply spr_refl|]. intros d1 x E. injection E as <- <-. exact NS.
Qed.
Lemma spr_add_element fuel d e : new_element e -> spreads d (fst (add_element fuel d e)).
Proof. intros N. destruct (spr_children fuel e N d) as (A & B). unfold add_element. apply spr_bind; [exact A|]. intros d1 x E. apply spr_store. eapply B, E. Qed.
Lemma spr_add_to fuel d p e : new_element e -> spreads d (fst (add_element_to fuel d p e)).
Proof.
  intros N. destruct (spr_children fuel e N d) as (A & B). unfold add_element_to. apply spr_bind; [exact A|]. intros d1 x E.
  apply spr_bind; [apply spr_map_err, spr_store; eapply B, E|]. intros d2 ck _. apply spr_bind; [apply spr_link|]. intros d3 _ _.
  apply spr_bind; [apply spr_attach|]. intros d4 _ _. apply spr_bind; [apply spr_post_add|]. intros; apply spr_refl.
Qed.
Lemma spr_checked fuel d p e : new_element e -> spreads d (fst (add_checked fuel d p e)).
Proof. intros N. unfold add_checked. apply spr_pure. intros _ _. apply spr_add_to, N. Qed.
Lemma spr_in_layer fuel d lo ho t lt set e : new_element e -> spreads d (fst (add_in_layer fuel d lo ho t lt set e)).
Proof.
  intros N. unfold add_in_layer. apply spr_pure. intros lk _. apply spr_bind.
  - destruct lk; [apply spr_refl|]. apply spr_pure. intros _ _. apply spr_add_to. destruct (fresh_for_layer lt set d) as ((F & _) & _). exact F.
  - intros d2 k _. apply spr_pure. intros _ _. apply spr_add_to, N.
Qed.
Lemma spr_annotate fuel d p e : new_element e -> spreads d (fst (annotate fuel d p e)).
Proof.
  intros N. unfold annotate. destruct (get_elementdata d p) as [pe|]; [|apply spr_refl]. destruct (group_contains EG_Span (e_type e)); [|apply spr_checked, N].
  apply spr_pure. intros t _. apply spr_pure. intros lt _. cbv zeta. apply spr_pure. intros set _.
  destruct (p_wrefable (props (e_type pe))).
  - destruct (get_span_keys d e); [apply spr_refl|]. apply spr_pure. intros s _. apply spr_pure. intros anc _. destruct (find _ anc); [|apply spr_refl]. apply spr_in_layer, N.
  - destruct (_ && _); [apply spr_in_layer, N|apply spr_checked, N].
Qed.
Lemma spr_annotate_span fuel d e : new_element e -> spreads d (fst (annotate_span fuel d e)).
Proof. intros N. unfold annotate_span. destruct (negb _); [apply spr_refl|]. destruct (get_span_keys d e); [apply spr_refl|apply spr_annotate, N]. Qed.

(* ---------------------------------------------------------------- loading *)
Lemma no_spans_nil : no_spans []. Proof. intros s []. Qed.
Lemma spr_attr_children key l : (forall c, In c l -> feature_like c) -> forall d, spreads d (fst (add_attr_children d key l)).
Proof.
  induction l as [|c l IH]; intros FL d; cbn [add_attr_children]; [apply spr_refl|].
  apply spr_bind; [apply spr_store; destruct (FL c (or_introl eq_refl)) as (s & v & ->); intros k I; cbn in I; intuition discriminate|]. intros d1 ck _.
  apply spr_bind; [apply spr_attach|]. intros; apply IH. intros x X; apply FL; right; exact X.
Qed.
Lemma spr_push_data d st s mk : (forall s k, mk s <> DSpanReference k) -> spreads d (push_data d st s mk).
Proof.
  intros N. unfold push_data. destruct (is_blank s); [apply spr_refl|]. destruct st; [apply spr_refl|]. apply spr_push. intros k E. destruct (N _ _ E).
Qed.
Lemma parsed_elem O name attrs x : parse_err (parse_elem O name attrs) = Ok x -> e_data (fst x) = [] /\ forall c, In c (snd x) -> feature_like c.
Proof.
  intros H. apply parse_err_ok in H. unfold parse_elem in H. apply rbind_ok in H. destruct H as (et & _ & H). apply rbind_ok in H. destruct H as (y & Y & H). apply parse_err_ok in Y.
  injection H as <-. split; [reflexivity|]. apply parse_attributes_spec in Y. apply Y.
Qed.
Lemma spr_elements_step fuel O d st ev : spreads d (fst (elements_step fuel O d st ev)).
Proof.
  destruct ev as [ns name attrs|ns name attrs|ns name|[t|]|[t|]|[t|]| |]; cbn [elements_step]; try apply spr_refl; try (apply spr_push_data; discriminate).
  - destruct ns; try apply spr_refl.
    apply spr_pure; intros x X. apply parsed_elem in X. destruct X as (X & XC).
    apply spr_bind; [apply spr_map_err, spr_store; rewrite X; apply no_spans_nil|]. intros d1 key _.
    apply spr_bind; [apply spr_attr_children, XC|]. intros; apply spr_refl.
  - destruct ns; try apply spr_refl.
    apply spr_pure; intros x X. apply parsed_elem in X. destruct X as (X & XC).
    apply spr_bind; [apply spr_map_err, spr_store; rewrite X; apply no_spans_nil|]. intros d1 key _.
    apply spr_bind; [destruct st; [apply spr_refl|apply spr_attach]|]. intros d2 _ _.
    apply spr_bind; [apply spr_attr_children, XC|]. intros d3 _ _.
    apply spr_bind; [apply spr_post_add|]. intros; apply spr_refl.
  - destruct ns; try apply spr_refl. destruct st as [|key [|top st]]; try apply spr_refl.
    apply spr_bind; [apply spr_post_add|]. intros d1 _ _.
    destruct (get_elementdata d1 key); [|apply spr_refl].
    apply spr_pure; intros et _. destruct (et_eqb _ et); [|apply spr_refl].
    apply spr_bind; [apply spr_attach|]. intros; apply spr_refl.
Qed.
Lemma spr_loop fuel O l : forall d st, spreads d (fst (parse_elements_loop fuel O d st l)).
Proof.
  induction l as [|ev l IH]; intros d st; cbn [parse_elements_loop]; [apply spr_refl|].
  apply spr_bind; [apply spr_elements_step|]. intros d1 p _. destruct p; [apply IH|apply spr_refl].
Qed.
Lemma prims0_elements_len a b : prims0 anything a b -> sh_len a = 0 -> sh_len b = 0.
Proof. intros P. apply prims0_len in P. destruct P as (P & _). congruence. Qed.
Lemma spans_empty d : sh_len d = 0 -> spans_ok d.
Proof. intros L k e G. exfalso. unfold get_elementdata in G. apply st_get_lt in G. unfold sh_len in L. lia. Qed.
Lemma spans_load fuel O p l d : parse_document fuel O p l = Ok d -> spans_ok d.
Proof.
  intros H. unfold parse_document in H. apply rbind_ok in H. destruct H as ([d1 l1] & R & H).
  assert (HP : forall p l, parse_processor l = Ok p -> g_proc anything p) by (intros; exact I).
  pose proof (proj1 (parse_root_p0 anything _ _ _ _ R)) as R0. apply prims0_elements_len in R0; [|reflexivity].
  pose proof (parse_metadata_p0 anything (fun _ _ _ _ => I) HP l1 d1 ms_init) as M. destruct (parse_metadata d1 ms_init l1) as [d2 r2]. cbn [fst] in M. apply prims0_elements_len in M; [|exact R0].
  apply rbind_ok in H. destruct H as (l2 & E2 & H).
  apply rbind_ok in H. destruct H as ([[body|] l3] & B & H); [|discriminate]. apply parse_body_suffix in B. destruct B as (ns & name & attrs & et & x & S3 & PA & ->).
  match type of H with (let (_, _) := ?x in _) = _ => destruct x as [d5 r5] eqn:E end.
  apply rbind_ok in H. destruct H as (u & -> & H). injection H as <-.
  assert (Q : spreads d2 (fst (d5, Ok u))); [|apply Q, spans_empty, M]. rewrite <- E. clear E.
  apply spr_bind; [apply spr_map_err, spr_store, no_spans_nil|]. intros d3 k _. apply spr_bind; [apply spr_map_err, spr_same, apply_properties_elements|]. intros d4 u' _.
  unfold parse_elements. destruct (st_items (doc_elements d4)); [apply spr_refl|apply spr_loop].
Qed.
Lemma spans_new id p d : doc_new id p = (d, Ok tt) -> spans_ok d.
Proof.
  intros H. assert (Q : spreads (doc_empty id (dp_autodeclare p)) (fst (doc_new id p))); [|rewrite H in Q; apply Q, spans_empty; reflexivity]. clear H.
  unfold doc_new. apply spr_bind.
  - apply spr_same, encode_elements.
  - intros d1 b E. apply encode_value in E. destruct E as (_ & D & _). apply spr_bind; [apply spr_store; rewrite D; apply no_spans_nil|]. intros d2 k _. apply spr_same, apply_properties_elements.
Qed.
Lemma spr_step d o d' : careful_step d o d' -> spreads d d'.
Proof.
  intros (_ & C & fuel & r & H & _). replace d' with (fst (run_op fuel d o)) by (rewrite H; reflexivity). clear H.
  destruct o; cbn [careful run_op] in *; try apply spr_forget.
  - apply spr_add_element, C.
  - apply spr_add_to, C.
  - apply spr_store. destruct C as ((N & _) & _). inversion N; assumption.
  - apply spr_attach.
  - apply spr_detach.
  - apply spr_annotate, C.
  - apply spr_annotate_span, C.
  - apply spr_same, declare_elements.
  - apply spr_same, add_declaration_elements.
  - apply spr_same, doc_add_class_elements.
  - apply spr_same, add_provenance_elements.
  - apply spr_same, add_processor_elements.
  - apply spr_same, add_subprocessor_elements.
  - apply spr_same, attach_processor_elements.
  - apply spr_same. reflexivity.
  - apply spr_same, apply_properties_elements.
Qed.
Theorem tidy_spans d : tidy d -> spans_ok d.
Proof.
  intros T. induction T as [id p d P H|fuel O p l d P N H|d o d' T IH S].
  - eapply spans_new, H.
  - eapply spans_load, H.
  - eapply spr_step; eassumption.
Qed.
