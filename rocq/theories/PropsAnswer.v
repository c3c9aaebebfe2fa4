(* Adding elements leaves the answers to queries: C72.
   [grown] (below) says what was done in between: steps that only add. *)
From Coq Require Import String List Bool Arith NArith Lia.
From Verif Require Import Base BaseFacts Types TypesFacts SpecTable Attrib AttribFacts Element Store StoreFacts Metadata Document Select DocOps Text Xml Parser Serialiser History Spec
  FrameFacts InvFacts DocFacts StoreThms InternFacts EncodeFacts LinkFacts TreeFacts ForestFacts SelSpec SelectFacts Examples PropsStore PropsEncode PropsLinks PropsSelect PropsQuery NoPanic SpanFacts ValidFacts PropsValid Returns AnswerFacts PropsFound PropsQuiet.
Import ListNotations.
Open Scope string_scope.
Open Scope list_scope.

(* ---------------------------------------------------------------- compiled queries *)
(* no value with a key that is not yet given out *)
Lemma query_compiles d d1 q s : reachable normal d -> reachable normal d1 -> doc_le d d1 -> from_query d q = Ok s -> exists s1, from_query d1 q = Ok s1.
Proof.
  intros R R1 LE H. unfold from_query in *. cbv zeta in *. destruct (q_subset q) as [|x| | |]; cbn [rbind]; eauto. apply rbind_ok in H. destruct H as (u & A & _).
  assert (M : forall sn dk, encode_set d (q_contexttype q) sn = CIs dk -> encode_set d1 (q_contexttype q) sn = CIs dk).
  { intros sn dk. unfold encode_set. destruct (q_contexttype q) as [|et| | |]; try discriminate. destruct (et_annotationtype et) as [a|]; [|discriminate].
    destruct (get_declaration_key_by_id d (index_id a sn)) as [k|] eqn:G; [|discriminate]. destruct LE as [_ (_ & X & _) _]. assert (G1 : get_declaration_key_by_id d1 (index_id a sn) = Some k) by (apply X, G). rewrite G1. auto. }
  destruct (q_set q) as [|y| | |]; try discriminate A.
  - destruct (encode_set d (q_contexttype q) (Some y)) as [|dk| | |] eqn:E; try discriminate A. rewrite (M _ _ E). cbn [rbind]. eauto.
  - destruct (encode_set d (q_contexttype q) None) as [|dk| | |] eqn:E; try discriminate A. rewrite (M _ _ E). cbn [rbind]. eauto.
Qed.
Lemma keys_stay e e1 : e_type e1 = e_type e -> e_attribs e1 = e_attribs e ->
  r_declaration_key e1 = r_declaration_key e /\ r_subset_key e1 = r_subset_key e /\ r_class_key e1 = r_class_key e /\ r_processor_key e1 = r_processor_key e.
Proof. intros T A. destruct e, e1. cbn in *. subst. repeat split. Qed.
Lemma satisfies_stays d d1 q e e1 t a : doc_le d d1 -> enc_state d (e_type e) (e_attribs e) -> e_type e1 = e_type e -> e_attribs e1 = e_attribs e -> typed_by q t -> et_annotationtype t = Some a ->
  (satisfies d1 q e1 <-> satisfies d q e).
Proof.
  intros LE EO T A TB AT. destruct (report_le d d1 e e1 LE EO T A) as (S1 & S2 & S3 & _ & _ & _ & S4).
  assert (B : ~ bare_feature e \/ forall x y, e_type y = e_type e -> e_attribs y = e_attribs e -> r_subset x y = r_subset d e -> ~ satisfies x q y).
  { destruct EO as (p & n & EA & F & _). destruct (et_eqb_spec (e_type e) ET_Feature) as [FT|NF]; [|left; intros (Q & _); contradiction]. destruct (en_subset n) as [sk|] eqn:ES.
    - left. intros (_ & Q). destruct e as [ty l da k pa]. cbn in EA. subst l. rewrite (has_subset_refs p n F), ES in Q. discriminate.
    - right. intros x y TY _ RS [Q1 _ _ _ _ Q2]. rewrite RS, (rep_subset d e p n EA F), ES in Q2. unfold typed_by in TB. destruct Q2 as (v & Q2 & M). injection Q2 as <-.
      assert (NN : obind (obind (en_dec n) (get_declaration d)) (fun _ => @None string) = None) by (destruct (obind (en_dec n) (get_declaration d)); reflexivity).
      change (fun dec : declaration => obind None (d_get_subset dec)) with (fun _ : declaration => @None string) in M. rewrite NN in M.
      destruct (q_subset q); cbn [meets] in M; try discriminate M; try congruence; rewrite TB, TY, FT in Q1; cbn in Q1; injection Q1 as <-; discriminate AT. }
  destruct B as [B|B].
  - specialize (S4 B). split; intros [Q1 Q2 Q3 Q4 Q5 Q6]; split; congruence.
  - split; intros Q; exfalso; [apply (B d1 e1 T A S2), Q|apply (B d e eq_refl eq_refl eq_refl), Q].
Qed.
Lemma accepts_stays d d1 q s s1 k e e1 x : reachable normal d -> reachable normal d1 -> doc_le d d1 -> from_query d q = Ok s -> from_query d1 q = Ok s1 -> get_elementdata d k = Some e -> get_elementdata d1 k = Some e1 ->
  e_type e1 = e_type e -> e_attribs e1 = e_attribs e -> item_key x = [k] -> (accepts d1 s1 x <-> accepts d s x).
Proof.
  intros R R1 LE Q Q1 G G1 T A IK.
  assert (X : accepts d1 s1 (DElement k) <-> accepts d s (DElement k)).
  2:{ assert (Y : forall d s, accepts d s x <-> accepts d s (DElement k)) by (intros d0 s0; destruct x; try discriminate IK; injection IK as ->; reflexivity). rewrite !Y. exact X. }
  clear x IK. pose proof (normal_any _ R) as RA. destruct (reachable_full _ R) as (_ & _ & _ & EO). pose proof (EO _ _ G) as EE.
  destruct (from_query_shape _ _ _ Q) as (NX & DT & TY & GR & PR & AN & AT & SE & SU & SU2 & CL). destruct (from_query_shape _ _ _ Q1) as (NX1 & DT1 & TY1 & GR1 & PR1 & AN1 & AT1 & SE1 & SU1 & SU21 & CL1).
  assert (TYPED : forall sn, asks_set q sn -> (accepts d1 s1 (DElement k) <-> accepts d s (DElement k))).
  { intros sn AS. set (src := match q_subset q with CSome | CIs _ => q_contexttype q | _ => q_elementtype q end) in *.
    assert (S' : s_set s = encode_set d src sn /\ s_set s1 = encode_set d1 src sn) by (unfold asks_set in AS; rewrite SE, SE1, AS; destruct sn; auto). destruct S' as (S' & S1').
    destruct src as [|t| | |] eqn:SRC; try (split; intros Z; exfalso; (eapply select_hopeless_accepts; [| |exact Z]; [left; red; assumption|assumption])).
    destruct (et_annotationtype t) as [a|] eqn:ATT; [|split; intros Z; exfalso; (eapply select_hopeless_accepts; [| |exact Z]; [left; red; (rewrite S' || rewrite S1'); unfold encode_set; rewrite ATT; reflexivity|assumption])].
    assert (TB : typed_by q t) by (unfold typed_by; unfold src in SRC; destruct (q_subset q); exact SRC).
    rewrite (C29_compiled_query_partial d q s t a sn k e R Q AS TB ATT G), (C29_compiled_query_partial d1 q s1 t a sn k e1 R1 Q1 AS TB ATT G1).
    rewrite (satisfies_stays d d1 q e e1 t a LE EE T A TB ATT). destruct (keys_stay e e1 T A) as (K1 & _).
    assert (D : (exists dec, r_declaration d1 e1 = Ok (Some dec) /\ d_type dec = a) <-> (exists dec, r_declaration d e = Ok (Some dec) /\ d_type dec = a)).
    { unfold r_declaration. rewrite K1. destruct (reported _ _ _ R G) as (n & RO & -> & _). cbn [rbind]. destruct (en_dec n) as [dk|] eqn:ED; cbn [obind]; [|tauto].
      destruct (ro_dec _ _ _ RO dk ED) as (dec & GD & _). destruct (doc_le_decl _ _ _ _ LE GD) as (dec1 & GD1 & K). rewrite GD, GD1. pose proof (dk_type _ _ K) as DTY.
      split; intros (z & Z & W); injection Z as <-; [exists dec|exists dec1]; split; congruence. }
    rewrite D. tauto. }
  destruct (q_set q) as [|sn| | |] eqn:QS.
  2:{ apply (TYPED (Some sn)). unfold asks_set. rewrite QS. reflexivity. }
  3:{ apply (TYPED None). unfold asks_set. rewrite QS. reflexivity. }
  3:{ split; intros Z; exfalso; (eapply select_hopeless_accepts; [| |exact Z]; [left; red; assumption|assumption]). }
  all: clear TYPED.
  all: assert (SUB : s_subset s1 = s_subset s) by (destruct (q_subset q); try congruence; destruct (SU _ eq_refl) as (dk & Z & _); congruence).
  all: assert (CLS : s_class s1 = s_class s) by (rewrite CL, CL1, SE, SE1; destruct (q_class q); reflexivity).
  all: rewrite !accepts_alone by assumption; cbn [accepts_one]; rewrite DT, DT1, GR, GR1, TY, TY1, SE, SE1, SUB, CLS, PR, PR1, AN, AN1, AT, AT1.
  all: destruct (keys_stay e e1 T A) as (K1 & K2 & K3 & K4); destruct (reported _ _ _ R G) as (n & RO & _ & _ & _ & V4 & _).
  all: assert (RO1 : refs_ok d1 (e_type e) n) by (eapply refs_ok_le; eassumption).
  all: assert (P : meets_read (coded (get_processor_key_by_id d1) (q_processor q)) (r_processor_key e1) <-> meets_read (coded (get_processor_key_by_id d) (q_processor q)) (r_processor_key e)).
  all: try (rewrite K4, V4, (proc_coded d1 _ (normal_any _ R1) (ro_proc _ _ _ RO1)), (proc_coded d _ RA (ro_proc _ _ _ RO));
    replace (option_map pr_id (obind (en_proc n) (get_processor d1))) with (option_map pr_id (obind (en_proc n) (get_processor d))); [tauto|];
    destruct (en_proc n) as [pk|] eqn:EP; [|reflexivity]; destruct (ro_proc _ _ _ RO pk EP) as (p & GP); destruct (doc_le_proc _ _ _ _ LE GP) as (p2 & GP2 & [(l & par & ->)]); cbn [obind]; rewrite GP, GP2; destruct p; reflexivity).
  all: assert (ANY : forall B r, @meets_read B CAny r) by (left; reflexivity).
  all: split; intros (D & z & Gz & B1 & B2 & B3 & B4 & B5 & B6 & _); (split; [exact D|]).
  all: first [assert (z = e1) by congruence; subst z|assert (z = e) by congruence; subst z].
  all: match goal with |- exists _, get_elementdata ?dd _ = _ /\ _ => first [unify dd d; exists e|unify dd d1; exists e1] end; (split; [assumption|]); rewrite ?T, ?K1, ?K2, ?K3 in *.
  all: split; [exact B1|]; split; [exact B2|]; split; [exact B3|]; split; [exact B4|]; split; [exact B5|]; split; [apply P; exact B6|]; split; apply ANY.
Qed.

(* ---------------------------------------------------------------- growing a document *)
(* Steps that only add: no element is attached elsewhere or detached, and no word reference is added to a span that is
   already there. *)
Definition only_adds (o : op) : Prop :=
  match o with
  | OAttach _ _ | ODetach _ => False
  | OAddElement e | OAddElementTo _ e | OStoreAdd e _ | OAnnotate _ e | OAnnotateSpan e => e_type e <> ET_WordReference
  | _ => True
  end.
Inductive grown : document -> document -> Prop :=
  | grown_none d : grown d d
  | grown_step d o d1 d2 : careful_step d o d1 -> only_adds o -> grown d1 d2 -> grown d d2.

Lemma tidy_keyed d : tidy d -> keyed d.
Proof. intros T k e G. apply (tidy_spans d T k e G). Qed.
Lemma tidy_dense d : tidy d -> forall k, k < sh_len d -> get_elementdata d k <> None.
Proof. intros T k K. pose proof (f_dense _ (tidy_forest _ T) k K) as Q. unfold sh in Q. destruct (get_elementdata d k); [discriminate|cbn in Q; congruence]. Qed.
Lemma widens_same d d1 : doc_elements d1 = doc_elements d -> widens (sh_len d) d d1.
Proof.
  intros E. destruct (widens_refl (sh_len d) d (below_len d)) as [A B]. split.
  - intros k e G. destruct (A k e G) as (y & l & GY & R). exists y, l. split; [|exact R]. unfold get_elementdata in *. rewrite E. exact GY.
  - intros k e K G. apply (B k e K). unfold get_elementdata in *. rewrite <- E. exact G.
Qed.
Lemma widens_store d e ctx : tidy d -> new_element e -> no_nested e -> widens (sh_len d) d (fst (store_add d e ctx)).
Proof.
  intros T NE NN. destruct (widens_refl (sh_len d) d (below_len d)) as [A B].
  assert (S : since (sh_len d) d (fst (store_add d e ctx))); [|destruct S; split; assumption].
  apply (on_store (sh_len d) d (below_len d)).
  - inversion NE as [x P E1 E2 E3]; subst. intros y j I K. destruct y; cbn in K; try discriminate K; [destruct (E1 _ I)|destruct (E2 _ I)].
  - inversion NE; assumption.
  - split; [exact A|exact B| |apply tidy_keyed, T|apply le_n]. intros k x q K G. assert (k < sh_len d) by (apply below_len; congruence). lia.
Qed.
Lemma layer_not_wref t lt : at_layertype t = Some lt -> lt <> ET_WordReference.
Proof. destruct t; cbn; intros H; try discriminate H; injection H as <-; discriminate. Qed.
Lemma add_children_no_nested fuel d e : no_nested e -> add_children fuel d e = (d, Ok (e, None)).
Proof.
  intros N. rewrite add_children_eq. replace (existsb is_add (e_data e)) with false; [reflexivity|]. symmetry. apply not_true_is_false. intros Q. apply existsb_exists in Q. destruct Q as (x & I & X). destruct x; try discriminate X. destruct (N _ I).
Qed.
Lemma add_careful fuel d p e d1 k : tidy d -> get_elementdata d p <> None -> fresh_for d e -> built e -> add_element_to fuel d p e = (d1, Ok k) -> careful_step d (OAddElementTo p e) d1.
Proof.
  intros T P F B A. split; [exact B|]. split; [split; assumption|]. exists fuel, (Ok tt). cbn [run_op]. unfold forget. rewrite A. split; [reflexivity|]. split; [exact I|]. auto.
Qed.
Lemma annotate_widens fuel d p e d1 k : tidy d -> fresh_for d e -> built e -> e_type e <> ET_WordReference -> annotate fuel d p e = (d1, Ok k) -> widens (sh_len d) d d1.
Proof.
  intros T F B NW H. pose proof (tidy_keyed d T) as KD.
  destruct (annotate_inv _ _ _ _ _ _ H) as [(_ & X)|[(X & NL)|(IL & h & t & lt & set & AT & LT & X & SE & SN & _)]]; [destruct (X k eq_refl)| |].
  - destruct (add_checked_inv _ _ _ _ _ _ X) as [(_ & Y)|(C & A)]; [destruct (Y k eq_refl)|]. apply check_exists in C. eapply add_to_widens; [exact KD|apply below_len, C|exact F|exact NW|exact A].
  - pose proof IL as (SP & _). apply group_in in SP. destruct (add_in_layer_inv _ _ _ _ _ _ _ _ _ _ SP AT LT X) as [(_ & Y)|[(lk & GL & C & A)|(_ & C & d2 & r2 & A & [(_ & _ & Y)|(lk & -> & C2 & A2)])]].
    + destruct (Y k eq_refl).
    + apply check_exists in C. eapply add_to_widens; [exact KD|apply below_len, C|exact F|exact NW|exact A].
    + destruct r2; discriminate.
    + destruct SE as [->|(s & -> & _)]; [congruence|]. destruct (fresh_for_layer lt (Some s) d) as (FL & IL'). fold (new_layer lt (Some s)) in FL, IL'. apply check_exists in C.
      destruct (added_facts _ _ _ _ _ _ (tidy_reachable _ T) C FL (layer_built lt s) A) as (R2 & L2 & G2 & I2). rewrite IL' in I2. assert (F2 := fresh_after _ _ _ F I2). apply check_exists in C2.
      assert (T2 : tidy d2) by (eapply tidy_step; [exact T|]; eapply add_careful; [exact T|exact C|exact FL|apply layer_built|exact A]).
      assert (LL : sh_len d <= sh_len d2) by (destruct L2 as [(_ & _ & Q) _ _]; exact Q).
      eapply widens_trans; [eapply add_to_widens; [exact KD|apply below_len, C|exact FL|rewrite new_layer_type; eapply layer_not_wref, LT|exact A]| |exact LL| | |apply tidy_dense, T2].
      * eapply add_to_widens; [apply tidy_keyed, T2|apply below_len, C2|exact F2|exact NW|exact A2].
      * intros j x G. apply below_len. congruence.
      * intros j J. destruct (get_elementdata d2 j) eqn:G; [|reflexivity]. assert (j < sh_len d2) by (apply below_len; congruence). lia.
Qed.
Lemma step_widens d o d1 : tidy d -> careful_step d o d1 -> only_adds o -> widens (sh_len d) d d1 /\ doc_le d d1 /\ tidy d1.
Proof.
  intros T CS OA. assert (T1 : tidy d1) by (eapply tidy_step; eassumption). pose proof (tidy_reachable _ T) as R. destruct CS as (OK & C & fuel & r & H & RT & AD).
  split; [|split; [|exact T1]].
  2:{ eapply (history_le normal d [o]); [apply normal_ok|exact R|]. eapply hist_cons; [exact OK|exact H|exact RT|apply hist_nil]. }
  assert (E : d1 = fst (run_op fuel d o)) by (rewrite H; reflexivity).
  assert (FG : forall A (x : document * res A), fst (forget x) = fst x) by (intros A [x [a| | |]]; reflexivity).
  assert (RD : widens (sh_len d) d d) by (apply widens_refl, below_len).
  destruct o; cbn [run_op careful only_adds] in *; try (destruct OA; fail); try rewrite FG in E.
  - destruct C as ((NE & _) & NN). unfold add_element in E. rewrite (add_children_no_nested _ _ _ NN) in E. cbn [sbind fst] in E. rewrite E. apply widens_store; assumption.
  - destruct C as (P & F). destruct (AD I) as [-> | ->]; [|exact RD]. unfold forget in H. apply sbind_ok in H. destruct H as (d' & k & A & Q). injection Q as ->.
    eapply add_to_widens; [apply tidy_keyed, T|apply below_len, P|exact F|exact OA|exact A].
  - destruct C as ((NE & _) & NN). rewrite E. apply widens_store; assumption.
  - destruct (AD I) as [-> | ->]; [|exact RD]. unfold forget in H. apply sbind_ok in H. destruct H as (d' & k & A & Q). injection Q as ->. eapply annotate_widens; eassumption.
  - destruct (AD I) as [-> | ->]; [|exact RD]. unfold forget in H. apply sbind_ok in H. destruct H as (d' & k & A & Q). injection Q as ->. unfold annotate_span in A.
    destruct (negb _); [discriminate|]. destruct (get_span_keys d e); [discriminate|]. eapply annotate_widens; eassumption.
  - apply widens_same. rewrite E. apply declare_elements.
  - apply widens_same. rewrite E. apply add_declaration_elements.
  - apply widens_same. rewrite E. apply doc_add_class_elements.
  - apply widens_same. rewrite E. apply add_provenance_elements.
  - apply widens_same. rewrite E. apply add_processor_elements.
  - apply widens_same. rewrite E. apply add_subprocessor_elements.
  - apply widens_same. rewrite E. apply attach_processor_elements.
  - apply widens_same. rewrite E. reflexivity.
  - apply widens_same. rewrite E. apply apply_properties_elements.
Qed.
Lemma grown_widens d d1 : tidy d -> grown d d1 -> widens (sh_len d) d d1 /\ doc_le d d1 /\ tidy d1.
Proof.
  intros T G. induction G as [d|d o d1 d2 CS OA G IH].
  - split; [apply widens_refl, below_len|]. split; [apply doc_le_refl|exact T].
  - destruct (step_widens d o d1 T CS OA) as (W & L & T1). destruct (IH T1) as (W2 & L2 & T2). split; [|split; [eapply doc_le_trans; eassumption|exact T2]].
    eapply widens_trans; [exact W|exact W2|destruct L as [(_ & _ & Q) _ _]; exact Q| | |apply tidy_dense, T1].
    + intros j x J. apply below_len. congruence.
    + intros j J. destruct (get_elementdata d1 j) eqn:Q; [|reflexivity]. assert (j < sh_len d1) by (apply below_len; congruence). lia.
Qed.

(* ---------------------------------------------------------------- C72 *)
Lemma grown_old_key d d1 k e : tidy d -> grown d d1 -> get_elementdata d k = Some e -> exists e1, get_elementdata d1 k = Some e1 /\ e_type e1 = e_type e /\ e_attribs e1 = e_attribs e /\ e_parent e1 = e_parent e.
Proof. intros T G E. destruct (grown_widens d d1 T G) as ([W _] & _). destruct (W k e E) as (y & l & A & B & C & D & _). exists y. auto. Qed.
(* Every element keeps its type, attributes and place; its content is what it was, followed by elements that are new
   or by references to spans that are new. *)
Theorem C72_elements_stay_partial : forall d d1 k e, tidy d -> grown d d1 -> get_elementdata d k = Some e ->
  exists e1 more, get_elementdata d1 k = Some e1 /\ e_type e1 = e_type e /\ e_attribs e1 = e_attribs e /\ e_parent e1 = e_parent e /\
    e_data e1 = e_data e ++ more /\ (forall x j, In x more -> item_key x = [j] -> get_elementdata d j = None).
Proof.
  intros d d1 k e T G E. destruct (grown_widens d d1 T G) as ([W _] & _). destruct (W k e E) as (y & l & A & B & C & D & F & NL). exists y, l. repeat (split; [assumption|]).
  intros x j I K. specialize (NL x j I K). destruct (get_elementdata d j) eqn:Q; [|reflexivity]. assert (j < sh_len d) by (apply below_len; congruence). lia.
Qed.
Print Assumptions C72_elements_stay_partial.
Theorem C72_ancestors_stay_partial : forall d d1 k l, tidy d -> grown d d1 -> get_elementdata d k <> None -> (chain d k l <-> chain d1 k l).
Proof.
  intros d d1 k l T G E.
  assert (P : forall j, get_elementdata d j <> None -> parent_of d1 j = parent_of d j).
  { intros j J. destruct (get_elementdata d j) as [e|] eqn:Q; [|congruence]. destruct (grown_old_key d d1 j e T G Q) as (e1 & Q1 & _ & _ & Y). unfold parent_of. rewrite Q, Q1. exact Y. }
  assert (U : forall j p, parent_of d j = Some p -> get_elementdata d p <> None).
  { intros j p J Z. apply (proj1 (proj2 (C18_links_agree_partial d T p) j)) in J. unfold children_of in J. rewrite Z in J. destruct J. }
  split; intros C; induction C as [j H|j p m H C IH].
  - constructor. rewrite P; assumption.
  - apply (chain_up _ _ p); [rewrite P; assumption|]. apply IH. eapply U, H.
  - constructor. rewrite <- P; assumption.
  - rewrite P in H by assumption. apply (chain_up _ _ p); [assumption|]. apply IH. eapply U, H.
Qed.
Print Assumptions C72_ancestors_stay_partial.

(* was the element of this item there already? *)
Definition known (d : document) (k : nat) : bool := match get_elementdata d k with Some _ => true | None => false end.
Definition known_item (d : document) (i : selectitem) : bool := match item_key (si_data i) with [k] => known d k | _ => false end.
Lemma known_lt d k : tidy d -> known d k = Nat.ltb k (sh_len d).
Proof.
  intros T. unfold known. destruct (get_elementdata d k) eqn:G; symmetry.
  - apply Nat.ltb_lt, below_len. congruence.
  - apply Nat.ltb_ge. destruct (Nat.le_gt_cases (sh_len d) k) as [L|L]; [exact L|]. destruct (tidy_dense d T k L G).
Qed.
Lemma known_oldi d i : tidy d -> known_item d i = oldi (sh_len d) i.
Proof. intros T. unfold known_item, oldi. destruct (item_key (si_data i)) as [|k [|]]; try reflexivity. apply known_lt, T. Qed.
Lemma children_stored d : tidy d -> forall k e c, get_elementdata d k = Some e -> In (DElement c) (e_data e) -> get_elementdata d c <> None.
Proof.
  intros T k e c G I. apply (proj2 (proj2 (C18_links_agree_partial d T k) c)). unfold children_of. rewrite G. apply in_child_keys, I.
Qed.
Lemma query_usable d q s : from_query d q = Ok s -> usable s.
Proof. intros H _. destruct (from_query_shape _ _ _ H) as (A & B & _). auto. Qed.
Lemma accepts_known d q s i : from_query d q = Ok s -> accepts d s (si_data i) -> known_item d i = true.
Proof.
  intros Q A. destruct (from_query_shape _ _ _ Q) as (NX & DT & _). rewrite (accepts_alone _ _ _ NX) in A. unfold known_item, known. destruct (si_data i); cbn [accepts_one item_key] in *.
  - rewrite DT in A. destruct A as [A|[]]; discriminate A.
  - destruct A as (_ & e & -> & _). reflexivity.
  - rewrite DT in A. destruct A as [A|[]]; discriminate A.
  - destruct A as (_ & e & -> & _). reflexivity.
  - destruct A.
Qed.
Lemma known_elem d i : known_item d i = true -> exists k e, item_key (si_data i) = [k] /\ get_elementdata d k = Some e.
Proof. unfold known_item, known. destruct (item_key (si_data i)) as [|k [|]]; try discriminate. destruct (get_elementdata d k) as [e|] eqn:G; [|discriminate]. intros _. exists k, e. auto. Qed.
Lemma accepts_known_item d d1 q s s1 i : tidy d -> grown d d1 -> from_query d q = Ok s -> from_query d1 q = Ok s1 -> known_item d i = true -> (accepts d1 s1 (si_data i) <-> accepts d s (si_data i)).
Proof.
  intros T G Q Q1 K. destruct (grown_widens d d1 T G) as (_ & LE & T1). destruct (known_elem d i K) as (k & e & IK & E). destruct (grown_old_key d d1 k e T G E) as (e1 & E1 & TY & AT & _).
  eapply accepts_stays; [apply tidy_reachable, T|apply tidy_reachable, T1|exact LE|exact Q|exact Q1|exact E|exact E1|exact TY|exact AT|exact IK].
Qed.
Lemma span_known d d1 i : tidy d -> grown d d1 -> known_item d i = true -> span_of d1 (si_data i) = span_of d (si_data i).
Proof.
  intros T G K. destruct (known_elem d i K) as (k & e & IK & E). destruct (grown_old_key d d1 k e T G E) as (e1 & E1 & TY & _). destruct (si_data i); cbn in IK; try discriminate IK; injection IK as ->; cbn [span_of]; [|reflexivity]. rewrite E, E1, TY. reflexivity.
Qed.

(* A query that can be asked before can be asked afterwards. What it then finds below any element that was there,
   in whatever way it recurses, is what it found before, in the same order and at the same places, with new elements
   in between. *)
Theorem C72_answers_stay_partial : forall d d1 q s, tidy d -> grown d d1 -> from_query d q = Ok s ->
  exists s1, from_query d1 q = Ok s1 /\
  forall fuel fuel' key r sp l l1, get_elementdata d key <> None ->
    select_data_by_key fuel d key s r false sp = Ok l -> select_data_by_key fuel' d1 key s1 r false sp = Ok l1 ->
    filter (known_item d) l1 = l.
Proof.
  intros d d1 q s T G Q. destruct (grown_widens d d1 T G) as (W & LE & T1). pose proof (tidy_reachable _ T) as R. pose proof (tidy_reachable _ T1) as R1.
  destruct (query_compiles d d1 q s R R1 LE Q) as (s1 & Q1). exists s1. split; [exact Q1|]. intros fuel fuel' key r sp l l1 K S S1.
  assert (AC : forall d, tidy d -> acyclic d) by (intros d0 T0 k; apply C21_forest_partial, T0).
  destruct (walk_exists d r (C18_links_agree_partial d T) (AC d T) key K 1) as (w & WW).
  assert (K1 : get_elementdata d1 key <> None) by (destruct (get_elementdata d key) as [e|] eqn:E; [|congruence]; destruct (grown_old_key d d1 key e T G E) as (e1 & E1 & _); congruence).
  destruct (walk_exists d1 r (C18_links_agree_partial d1 T1) (AC d1 T1) key K1 1) as (w1 & WW1).
  destruct (C24_select_order _ _ _ _ _ _ _ _ (query_usable _ _ _ Q) S WW) as (m & CH & O). destruct (C24_select_order _ _ _ _ _ _ _ _ (query_usable _ _ _ Q1) S1 WW1) as (m1 & CH1 & O1).
  assert (E : filter (known_item d) w1 = filter (known_item d) w).
  { rewrite !(filter_ext (known_item d) (oldi (sh_len d))) by (intros i; apply known_oldi, T). apply (proj1 (walk_old (sh_len d) d d1 r W (children_stored d T)) 1 key); assumption. }
  assert (M : filter (known_item d) m1 = m).
  { eapply (chosen_old (fun i => accepts d s (si_data i)) (fun i => accepts d1 s1 (si_data i))); [exact E|intros x; eapply accepts_known, Q| |exact CH|exact CH1]. intros x X. eapply accepts_known_item; eassumption. }
  destruct sp; [|subst; reflexivity]. rewrite (filter_ext (known_item d) (oldi (sh_len d))) by (intros i; apply known_oldi, T).
  eapply (once_old (sh_len d) d d1); [|exact O1|intros k _; reflexivity|].
  - intros i OI. apply span_known; [exact T|exact G|]. rewrite known_oldi by exact T. exact OI.
  - rewrite <- (filter_ext (known_item d) (oldi (sh_len d))) by (intros i; apply known_oldi, T). rewrite M. exact O.
Qed.
Print Assumptions C72_answers_stay_partial.
Lemma items_keys_spec d l ks : items_keys d l = Ok ks -> ks = item_keys l /\ forall k, In k ks -> get_elementdata d k <> None.
Proof.
  revert ks. induction l as [|i l IH]; intros ks H; cbn [items_keys] in H; [injection H as <-; split; [reflexivity|intros k []]|]. unfold item_keys. cbn [flat_map]. fold (item_keys l).
  destruct (si_data i) as [t|k|t|k|e]; cbn [item_key app]; try (apply IH; exact H).
  all: destruct (get_elementdata d k) as [e|] eqn:G; [|discriminate H]; apply rbind_ok in H; destruct H as (ks' & E & H); injection H as <-; destruct (IH _ E) as (-> & F); (split; [reflexivity|]); intros j [<-|J]; [congruence|apply F, J].
Qed.
Lemma known_keys d l : item_keys (filter (known_item d) l) = filter (known d) (item_keys l).
Proof.
  induction l as [|i l IH]; [reflexivity|]. cbn [filter]. unfold item_keys in *. cbn [flat_map]. rewrite filter_app, <- IH. unfold known_item. destruct (si_data i) eqn:S; cbn [item_key filter app]; try reflexivity.
  all: destruct (known d k); [cbn [flat_map]; rewrite S|]; reflexivity.
Qed.
(* the same for the elements that select() lists *)
Theorem C72_select_stays_partial : forall d d1 q s, tidy d -> grown d d1 -> from_query d q = Ok s ->
  exists s1, from_query d1 q = Ok s1 /\
  forall fuel fuel' key r l l1, get_elementdata d key <> None -> select fuel d key s r = Ok l -> select fuel' d1 key s1 r = Ok l1 ->
    filter (known d) l1 = l.
Proof.
  intros d d1 q s T G Q. destruct (C72_answers_stay_partial d d1 q s T G Q) as (s1 & Q1 & H). exists s1. split; [exact Q1|]. intros fuel fuel' key r l l1 K S S1.
  unfold select, select_by_key in S, S1. apply rbind_ok in S, S1. destruct S as (i & S & IK). destruct S1 as (i1 & S1 & IK1). apply items_keys_spec in IK, IK1. destruct IK as (-> & _). destruct IK1 as (-> & _).
  rewrite <- known_keys. f_equal. eapply H; eassumption.
Qed.
Print Assumptions C72_select_stays_partial.
Theorem C72_get_elements_stays_partial : forall d d1 fuel fuel' key t set r l l1, tidy d -> grown d d1 -> get_elementdata d key <> None ->
  get_elements fuel d key t set r = Ok l -> get_elements fuel' d1 key t set r = Ok l1 -> filter (known d) l1 = l.
Proof.
  intros d d1 fuel fuel' key t set r l l1 T G K H H1. unfold get_elements, from_query_expect in *. apply rbind_ok in H, H1. destruct H as (s & Q & H). destruct H1 as (s1' & Q1' & H1). apply unwrap_ok in Q, Q1'.
  destruct (C72_select_stays_partial _ _ _ _ T G Q) as (s1 & Q1 & X). replace s1' with s1 in * by congruence. eapply X; eassumption.
Qed.
Print Assumptions C72_get_elements_stays_partial.
Theorem C72_get_annotations_stays_partial : forall d d1 fuel fuel' key t set r l l1, tidy d -> grown d d1 -> get_elementdata d key <> None ->
  get_annotations fuel d key t set r = Ok l -> get_annotations fuel' d1 key t set r = Ok l1 -> filter (known d) l1 = l.
Proof. intros d d1 fuel fuel' key t set r l l1 T G K. apply C72_get_elements_stays_partial; assumption. Qed.
Print Assumptions C72_get_annotations_stays_partial.
Lemma once_part d seen m l : once d seen m l -> forall i, In i l -> In i m.
Proof. intros O. induction O; intros j J; try (destruct J as [->|J]; [left; reflexivity|right; auto]); try (right; auto). destruct J. Qed.
Lemma once_app d seen a b l : once d seen (a ++ b) l -> exists la lb, l = la ++ lb /\ once d seen a la.
Proof.
  revert seen l. induction a as [|i a IH]; intros seen l O; [exists [], l; split; [reflexivity|constructor]|]. cbn [app] in O. inversion O; subst.
  - destruct (IH _ _ ltac:(eassumption)) as (la & lb & -> & X). exists (i :: la), lb. split; [reflexivity|]. apply once_other; assumption.
  - destruct (IH _ _ ltac:(eassumption)) as (la & lb & -> & X). exists (i :: la), lb. split; [reflexivity|]. eapply once_first; eassumption.
  - destruct (IH _ _ ltac:(eassumption)) as (la & lb & -> & X). exists la, lb. split; [reflexivity|]. eapply once_again; eassumption.
Qed.
Lemma chosen_split {A} (P : A -> Prop) a b m : chosen P (a ++ b) m -> exists ma mb, m = ma ++ mb /\ chosen P a ma.
Proof.
  revert m. induction a as [|x a IH]; intros m C; [exists [], m; split; [reflexivity|constructor]|]. cbn [app] in C. inversion C; subst.
  - destruct (IH _ ltac:(eassumption)) as (ma & mb & -> & X). exists (x :: ma), mb. split; [reflexivity|]. constructor; assumption.
  - destruct (IH _ ltac:(eassumption)) as (ma & mb & -> & X). exists ma, mb. split; [reflexivity|]. apply chosen_drop; assumption.
Qed.
Lemma flat_more d d1 n k t tl : forall l i w, walk_data d RNo n k t i l w -> forall w1, walk_data d1 RNo n k t i (l ++ tl) w1 -> (exists w2, w1 = w ++ w2) /\ forall x, In x w -> In (si_data x) l.
Proof.
  induction l as [|x l IH]; intros i w W w1 W1.
  - inversion W; subst. split; [exists w1; reflexivity|intros x []].
  - inversion W as [|? ? ? ? ? ? ? ? D|? ? ? ? ? ? w' _ W']; subst; [destruct D|]. cbn [app] in W1. inversion W1 as [|? ? ? ? ? ? ? ? D|? ? ? ? ? ? w1' _ W1']; subst; [destruct D|].
    destruct (IH _ _ W' _ W1') as ((w2 & ->) & X). split; [exists w2; reflexivity|]. intros y [<-|Y]; [left; reflexivity|right; apply X, Y].
Qed.
Lemma selected_known d q s fuel key r sp l : tidy d -> from_query d q = Ok s -> get_elementdata d key <> None -> select_data_by_key fuel d key s r false sp = Ok l -> forall i, In i l -> known_item d i = true.
Proof.
  intros T Q K S i I. assert (A : acyclic d) by (intros k; apply C21_forest_partial, T). destruct (walk_exists d r (C18_links_agree_partial d T) A key K 1) as (w & W).
  destruct (C24_select_order _ _ _ _ _ _ _ _ (query_usable _ _ _ Q) S W) as (m & C & O). eapply accepts_known; [exact Q|]. assert (M : In i m) by (destruct sp; [eapply once_part; eassumption|congruence]).
  apply (chosen_in _ _ _ _ C) in M. apply M.
Qed.
(* Without recursion, what is new comes after what was there. *)
Theorem C72_new_comes_last_partial : forall d d1 q s, tidy d -> grown d d1 -> from_query d q = Ok s ->
  exists s1, from_query d1 q = Ok s1 /\
  forall fuel fuel' key sp l l1, get_elementdata d key <> None ->
    select_data_by_key fuel d key s RNo false sp = Ok l -> select_data_by_key fuel' d1 key s1 RNo false sp = Ok l1 -> exists more, l1 = l ++ more.
Proof.
  intros d d1 q s T G Q. destruct (grown_widens d d1 T G) as ([WO WN] & LE & T1). pose proof (tidy_reachable _ T) as R. pose proof (tidy_reachable _ T1) as R1.
  destruct (query_compiles d d1 q s R R1 LE Q) as (s1 & Q1). exists s1. split; [exact Q1|]. intros fuel fuel' key sp l l1 K S S1.
  assert (AC : forall d, tidy d -> acyclic d) by (intros d0 T0 k; apply C21_forest_partial, T0).
  destruct (walk_exists d RNo (C18_links_agree_partial d T) (AC d T) key K 1) as (w & WW).
  assert (K1 : get_elementdata d1 key <> None) by (destruct (get_elementdata d key) as [e|] eqn:E; [|congruence]; destruct (grown_old_key d d1 key e T G E) as (e1 & E1 & _); congruence).
  destruct (walk_exists d1 RNo (C18_links_agree_partial d1 T1) (AC d1 T1) key K1 1) as (w1 & WW1).
  destruct (C24_select_order _ _ _ _ _ _ _ _ (query_usable _ _ _ Q) S WW) as (m & CH & O). destruct (C24_select_order _ _ _ _ _ _ _ _ (query_usable _ _ _ Q1) S1 WW1) as (m1 & CH1 & O1).
  inversion WW as [? ? e ? E WD]; subst. inversion WW1 as [? ? e1 ? E1 WD1]; subst. destruct (WO key e E) as (y & tl & EY & TY & _ & _ & DA & NL). replace y with e1 in * by congruence. rewrite TY, DA in WD1.
  destruct (flat_more _ _ _ _ _ _ _ _ _ WD _ WD1) as ((w2 & ->) & IN). destruct (chosen_split _ _ _ _ CH1) as (ma & mb & -> & CA).
  assert (SAME : forall i, In i w -> (accepts d s (si_data i) <-> accepts d1 s1 (si_data i))).
  { intros i I. apply IN in I. destruct (known_item d i) eqn:KI; [symmetry; eapply accepts_known_item; eassumption|]. split; intros A; exfalso.
    - rewrite (accepts_known d q s i Q A) in KI. discriminate.
    - apply (accepts_known d1 q s1 i Q1) in A. unfold known_item, known in KI, A. destruct (si_data i) as [t|j|t|j|x]; cbn [item_key] in *; try discriminate A.
      + pose proof (children_stored d T key e j E I) as X. destruct (get_elementdata d j); [discriminate KI|congruence].
      + destruct (tidy_spans d T key e E) as (_ & X). specialize (X j I). apply (tidy_dense d T) in X. destruct (get_elementdata d j); [discriminate KI|congruence]. }
  assert (ma = m) by (symmetry; eapply (chosen_same (fun i => accepts d s (si_data i)) (fun i => accepts d1 s1 (si_data i)) w); [exact SAME|exact CH|exact CA]). subst ma.
  destruct sp; [|subst; eexists; reflexivity]. apply once_app in O1. destruct O1 as (la & lb & -> & OA).
  assert (KM : forall i, In i m -> known_item d i = true) by (intros i I; apply (chosen_in _ _ _ _ CH) in I; eapply accepts_known; [exact Q|apply I]).
  exists lb. f_equal. rewrite <- (filter_all (known_item d) la) by (intros i I; apply KM; eapply once_part; eassumption).
  rewrite (filter_ext (known_item d) (oldi (sh_len d))) by (intros i; apply known_oldi, T).
  eapply (once_old (sh_len d) d d1); [|exact OA|intros k _; reflexivity|].
  - intros i OI. apply span_known; [exact T|exact G|]. rewrite known_oldi by exact T. exact OI.
  - rewrite filter_all; [exact O|]. intros i I. rewrite <- known_oldi by exact T. apply KM, I.
Qed.
Print Assumptions C72_new_comes_last_partial.
Lemma first_is_head d q s fuel key r v : tidy d -> from_query d q = Ok s -> get_elementdata d key <> None -> select_first fuel d key s r = Ok v ->
  exists n l, select_data_by_key n d key s r false true = Ok l /\ v = hd_error (item_keys l).
Proof.
  intros T Q K F. destruct (C26_select_returns d key s r false true T K) as (n & l & S). specialize (S (n + fuel)). rewrite Nat.add_comm in S. assert (S' := S ltac:(lia)). exists (fuel + n), l. split; [exact S'|].
  assert (IK : items_keys d l = Ok (item_keys l)).
  { apply items_keys_ok. intros i k I E. pose proof (selected_known d q s _ key r true l T Q K S' i I) as X. unfold known_item, known in X. rewrite E in X. destruct (get_elementdata d k); [discriminate|discriminate X]. }
  pose proof (first_of_collect _ _ _ _ _ _ S' IK) as H. unfold select_first in F. rewrite (first_mono d _ fuel (sel_init key)) in H; [|rewrite F; discriminate|lia]. rewrite F in H. injection H as ->. reflexivity.
Qed.
(* The annotation of an element that get_annotation() and get_element() give stays the one they gave. *)
Theorem C72_get_element_stays_partial : forall d d1 fuel fuel' key t set k v, tidy d -> grown d d1 -> get_elementdata d key <> None ->
  get_element fuel d key t set RNo = Ok (Some k) -> get_element fuel' d1 key t set RNo = Ok v -> v = Some k.
Proof.
  intros d d1 fuel fuel' key t set k v T G K H H1. unfold get_element, from_query_expect in *. apply rbind_ok in H, H1. destruct H as (s & Q & H). destruct H1 as (s1' & Q1' & H1). apply unwrap_ok in Q, Q1'.
  destruct (C72_new_comes_last_partial _ _ _ _ T G Q) as (s1 & Q1 & X). replace s1' with s1 in * by congruence. destruct (grown_widens d d1 T G) as (_ & _ & T1).
  assert (K1 : get_elementdata d1 key <> None) by (destruct (get_elementdata d key) as [e|] eqn:E; [|congruence]; destruct (grown_old_key d d1 key e T G E) as (e1 & E1 & _); congruence).
  destruct (first_is_head _ _ _ _ _ _ _ T Q K H) as (n & l & S & V). destruct (first_is_head _ _ _ _ _ _ _ T1 Q1 K1 H1) as (n1 & l1 & S1 & V1).
  destruct (X _ _ _ _ _ _ K S S1) as (more & ->). subst v. unfold item_keys in *. rewrite flat_map_app. destruct (flat_map _ l); [discriminate V|]. cbn in V. injection V as ->. reflexivity.
Qed.
Print Assumptions C72_get_element_stays_partial.
Theorem C72_get_annotation_stays_partial : forall d d1 fuel fuel' key t set k v, tidy d -> grown d d1 -> get_elementdata d key <> None ->
  get_annotation fuel d key t set RNo = Ok (Some k) -> get_annotation fuel' d1 key t set RNo = Ok v -> v = Some k.
Proof. intros d d1 fuel fuel' key t set k v. apply C72_get_element_stays_partial. Qed.
Print Assumptions C72_get_annotation_stays_partial.
Definition only_addsb (o : op) : bool :=
  match o with
  | OAttach _ _ | ODetach _ => false
  | OAddElement e | OAddElementTo _ e | OStoreAdd e _ | OAnnotate _ e | OAnnotateSpan e => negb (et_eqb (e_type e) ET_WordReference)
  | _ => true
  end.
Lemma only_addsb_spec o : only_addsb o = true -> only_adds o.
Proof.
  assert (N : forall t, negb (et_eqb t ET_WordReference) = true -> t <> ET_WordReference) by (intros t H ->; vm_compute in H; discriminate H).
  destruct o; cbn [only_addsb only_adds]; intros H; try exact Logic.I; try discriminate H; apply N, H.
Qed.
Lemma exec_grown fuel l : forall d d', forallb only_addsb l = true -> exec_careful fuel d l = Some d' -> grown d d'.
Proof.
  induction l as [|o l IH]; intros d d' A H; cbn in H; [injection H as <-; constructor|]. cbn [forallb] in A. apply andb_prop in A. destruct A as (A1 & A2).
  destruct (normal_opb d o && carefulb d o) eqn:B; [|discriminate]. apply andb_true_iff in B. destruct B as (B1 & B2).
  destruct (run_op fuel d o) as [d1 [[]| | |]] eqn:R; try discriminate. eapply grown_step; [|apply only_addsb_spec, A1|eapply IH; [exact A2|exact H]].
  split; [apply normal_opb_spec, B1|]. split; [apply carefulb_spec, B2|]. exists fuel, (Ok tt). split; [exact R|]. split; [exact Logic.I|auto].
Qed.
(* a second tag for the first word, an entity over the first two words, and a fourth word *)
Definition growing : list op :=
  [OAnnotate 3 (e_attr ET_PosAnnotation [A_Class "greeting"; A_Set "posset"]); OAnnotate 10 (ex_span "loc" ["w.1"; "w.2"]); OAddElementTo 10 (ex_word "w.4" "!" "punct")].
Definition ask_tags : query := qb_set (ask ET_PosAnnotation) (CIs "posset").
Example C72_nonvacuous : exists d1, tidy ex_doc /\ grown ex_doc d1 /\
  answer ex_doc 0 ask_tags RAlways = Ok [2; 5; 8] /\ answer d1 0 ask_tags RAlways = Ok [2; 17; 5; 8; 22] /\
  answer ex_doc 6 (ask ET_Entity) RNo = Ok [15] /\ answer d1 6 (ask ET_Entity) RNo = Ok [15; 20] /\
  answer ex_doc 10 (ask ET_Entity) RAlways = Ok [15] /\ answer d1 10 (ask ET_Entity) RAlways = Ok [20; 15] /\
  get_annotation fuel1 ex_doc 3 AT_POS CAny RNo = Ok (Some 2) /\ get_annotation fuel1 d1 3 AT_POS CAny RNo = Ok (Some 2).
Proof.
  destruct (exec_careful fuel1 ex_doc growing) as [d1|] eqn:E; [|vm_compute in E; discriminate E]. exists d1. split; [exact ex_tidy|]. split; [eapply exec_grown; [|exact E]; vm_compute; reflexivity|].
  vm_compute in E. injection E as <-. repeat (split; [vm_compute; reflexivity|]). vm_compute. reflexivity.
Qed.
(* A word reference added to an entity that is already there: the word did not lead to that entity before, and now it
   does, although the entity is not new. *)
Theorem C72_word_reference_refuted : exists d d1 p e k, tidy d /\ fresh_for d e /\ e_type e = ET_WordReference /\ add_element_to fuel1 d p e = (d1, Ok k) /\ known d 15 = true /\
  answer d 3 (ask ET_Entity) RNo = Ok [] /\ answer d1 3 (ask ET_Entity) RNo = Ok [15].
Proof.
  exists ex_doc. eexists. exists 15, (e_attr ET_WordReference [A_Idref "w.1"]). eexists. split; [exact ex_tidy|]. split; [apply freshb_spec; vm_compute; reflexivity|]. split; [reflexivity|].
  split; [vm_compute; reflexivity|]. repeat (split; [vm_compute; reflexivity|]). vm_compute. reflexivity.
Qed.
Print Assumptions C72_word_reference_refuted.
