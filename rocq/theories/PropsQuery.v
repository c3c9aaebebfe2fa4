(* Properties C29, C30, C32: what a selector compiled from a query selects *)
From Coq Require Import String List Bool Arith NArith Lia.
From Verif Require Import Base Types SpecTable Attrib Element Store Metadata Document Select DocOps Xml Parser History BaseFacts TypesFacts StoreFacts Spec
  InvFacts InternFacts EncodeFacts LinkFacts TreeFacts ForestFacts Examples PropsStore PropsEncode PropsLinks SelSpec SelectFacts PropsSelect.
Import ListNotations.
Open Scope list_scope.

Lemma normal_any d : reachable normal d -> reachable anything d.
Proof. apply reachable_mono, normal_anything. Qed.

(* the compiled form of a criterion on a value of a vocabulary *)
Definition coded (key : string -> option nat) (c : cmp string) : cmp nat :=
  match c with
  | CIs x => match key x with Some k => CIs k | None => CUnmatchable end
  | CAny => CAny | CSome => CSome | CNone => CNone | CUnmatchable => CUnmatchable
  end.
Lemma coded_spec key get c o : (forall x k, key x = Some k <-> get k = Some x) -> (forall k, o = Some k -> exists x, get k = Some x) ->
  (meets_read (coded key c) (Ok o) <-> meets c (obind o get)).
Proof.
  intros K G. unfold meets_read, coded. split.
  - intros [H|(v & Q & H)].
    + destruct c; try exact I; try discriminate H. destruct (key a); discriminate.
    + injection Q as <-. destruct c as [|x| | |]; cbn [meets] in *; auto.
      * destruct (key x) as [k|] eqn:E; [|destruct H]. cbn [meets] in H. subst o. cbn. apply K, E.
      * destruct o as [k|]; [|congruence]. destruct (G k eq_refl) as (x & X). cbn. congruence.
      * subst o. reflexivity.
  - intros H. destruct c as [|x| | |]; cbn [meets] in *; auto; right; exists o; (split; [reflexivity|]).
    + destruct o as [k|]; [|discriminate]. cbn in H. apply K in H. rewrite H. reflexivity.
    + destruct o as [k|]; [discriminate|]. cbn in H. congruence.
    + destruct o as [k|]; [|reflexivity]. destruct (G k eq_refl) as (x & X). cbn in H. congruence.
    + destruct H.
Qed.
Lemma read_eq {A} (c : cmp A) r v : r = Ok v -> (meets_read c r <-> meets c v).
Proof.
  intros ->. unfold meets_read. split.
  - intros [->|(w & Q & H)]; [exact I|]. injection Q as <-. exact H.
  - intros H. right. eauto.
Qed.
Lemma value_eq {A} (c : cmp A) r v : r = Ok v -> (value_meets c r <-> meets c v).
Proof. intros ->. unfold value_meets. split; [intros (w & Q & H); injection Q as <-; exact H|eauto]. Qed.

Lemma encode_set_spec d t at_ set : reachable anything d -> et_annotationtype t = Some at_ ->
  (exists dk dec, encode_set d (CIs t) set = CIs dk /\ get_declaration d dk = Some dec /\ d_type dec = at_ /\ d_set dec = set) \/
  (encode_set d (CIs t) set = CUnmatchable /\ forall dk dec, get_declaration d dk = Some dec -> d_type dec = at_ -> d_set dec <> set).
Proof.
  intros R A. unfold encode_set. rewrite A. destruct (get_declaration_key_by_id d (index_id at_ set)) as [dk|] eqn:E.
  - left. apply (C07_found_by_type_and_set _ _ _ _ R) in E. destruct E as (dec & G & T & S). exists dk, dec. auto.
  - right. split; [reflexivity|]. intros dk dec G T S. assert (X : get_declaration_key_by_id d (index_id at_ set) = Some dk) by (apply (C07_found_by_type_and_set _ _ _ _ R); eauto). congruence.
Qed.
Lemma proc_coded d o : reachable anything d -> (forall k, o = Some k -> exists p, get_processor d k = Some p) -> forall c,
  (meets_read (coded (get_processor_key_by_id d) c) (Ok o) <-> meets c (option_map pr_id (obind o (get_processor d)))).
Proof.
  intros R H c. rewrite (coded_spec _ (fun k => option_map pr_id (get_processor d k))).
  - destruct o as [k|]; reflexivity.
  - intros x k. rewrite (C03_processor_by_id d x k R). split.
    + intros (p & G & <-). rewrite G. reflexivity.
    + intros Q. destruct (get_processor d k) as [p|]; [|discriminate]. injection Q as <-. eauto.
  - intros k E. destruct (H k E) as (p & ->). cbn. eauto.
Qed.

(* the element type that gives the annotation type of the set *)
Definition typed_by (q : query) (t : ElementType) : Prop :=
  match q_subset q with CIs _ | CSome => q_contexttype q = CIs t | _ => q_elementtype q = CIs t end.
Lemma not_feature t a : et_annotationtype t = Some a -> t <> ET_Feature.
Proof. intros H ->. discriminate. Qed.

(* the query asks for a particular set, or for no set *)
Definition asks_set (q : query) (o : option string) : Prop := q_set q = match o with Some x => CIs x | None => CNone end.
(* the parts of a compiled query whose set is known *)
Lemma from_query_known d q s t sn dk dec : from_query d q = Ok s -> typed_by q t -> asks_set q sn ->
  encode_set d (CIs t) sn = CIs dk -> get_declaration d dk = Some dec ->
  s = mkSel [DS_Elements] (q_elementtype q) (q_elementgroup q) (q_contexttype q) (CIs dk)
        (coded (match q_subset q with CIs _ | CSome => match coded (d_subset_key dec) (q_subset q) with CIs _ | CSome => d_subclass_key dec | _ => d_class_key dec end | _ => d_class_key dec end) (q_class q))
        (coded (get_processor_key_by_id d) (q_processor q)) (coded (d_subset_key dec) (q_subset q)) CAny CAny CAny None.
Proof.
  unfold typed_by, asks_set. intros H T S E G. symmetry in H. unfold from_query in H. rewrite S in H.
  assert (X : forall src, src = CIs t -> match match sn with Some x => CIs x | None => CNone end with CIs s0 => encode_set d src (Some s0) | CAny => CAny | CSome => CSome | CNone => encode_set d src None | CUnmatchable => CUnmatchable end = CIs dk) by (intros src ->; destruct sn; exact E).
  rewrite (X _ (match q_subset q as x return (match x with CIs _ | CSome => q_contexttype q = CIs t | _ => q_elementtype q = CIs t end -> match x with CSome | CIs _ => q_contexttype q | _ => q_elementtype q end = CIs t) with CAny => fun h => h | CIs _ => fun h => h | CSome => fun h => h | CNone => fun h => h | CUnmatchable => fun h => h end T)) in H.
  clear X. rewrite G in H. cbv zeta in H.
  destruct (q_subset q) as [|x| | |] eqn:QS; cbn [rbind obind] in H;
    [|destruct (d_subset_key dec x) as [sk|] eqn:SK|..]; cbn [rbind obind coded] in H |- *; rewrite ?SK; injection H as ->; f_equal;
    destruct (q_class q) as [|c| | |]; cbn [coded]; rewrite ?G; cbn [obind]; try reflexivity;
    destruct (q_processor q); reflexivity.
Qed.
Lemma from_query_shape d q s : from_query d q = Ok s ->
  s_next s = None /\ s_datatypes s = [DS_Elements] /\ s_elementtype s = q_elementtype q /\ s_elementgroup s = q_elementgroup q /\
  s_processor s = coded (get_processor_key_by_id d) (q_processor q) /\ s_annotator s = CAny /\ s_annotatortype s = CAny /\
  s_set s = match q_set q with
            | CIs x => encode_set d (match q_subset q with CSome | CIs _ => q_contexttype q | _ => q_elementtype q end) (Some x)
            | CNone => encode_set d (match q_subset q with CSome | CIs _ => q_contexttype q | _ => q_elementtype q end) None
            | CAny => CAny | CSome => CSome | CUnmatchable => CUnmatchable end /\
  (forall x, q_subset q = CIs x -> exists dk, s_set s = CIs dk /\ s_subset s = match obind (get_declaration d dk) (fun dec => d_subset_key dec x) with Some k => CIs k | None => CUnmatchable end) /\
  (match q_subset q with CIs _ => True | CAny => s_subset s = CAny | CSome => s_subset s = CSome | CNone => s_subset s = CNone | CUnmatchable => s_subset s = CUnmatchable end) /\
  s_class s = match q_class q with
              | CIs c => match s_set s with
                         | CIs dk => match obind (get_declaration d dk) (fun dec => match s_subset s with CIs _ | CSome => d_subclass_key dec c | _ => d_class_key dec c end) with Some k => CIs k | None => CUnmatchable end
                         | _ => CUnmatchable end
              | CAny => CAny | CSome => CSome | CNone => CNone | CUnmatchable => CUnmatchable end.
Proof.
  unfold from_query. intros H. apply rbind_ok in H. destruct H as (sub & SUB & H). injection H as <-.
  cbn [s_next s_datatypes s_elementtype s_elementgroup s_processor s_annotator s_annotatortype s_set s_subset s_class].
  split; [reflexivity|]. split; [reflexivity|]. split; [reflexivity|]. split; [reflexivity|]. split; [destruct (q_processor q); reflexivity|]. split; [reflexivity|]. split; [reflexivity|].
  split; [destruct (q_set q); reflexivity|]. split; [|split].
  - intros x Q. rewrite Q in SUB. rewrite Q. cbv zeta in *.
    destruct (match q_set q with CIs s => encode_set d (q_contexttype q) (Some s) | CAny => CAny | CSome => CSome | CNone => encode_set d (q_contexttype q) None | CUnmatchable => CUnmatchable end) as [|dk| | |]; try discriminate SUB.
    injection SUB as <-. exists dk. split; reflexivity.
  - destruct (q_subset q); try exact I; injection SUB as <-; reflexivity.
  - destruct (q_class q); reflexivity.
Qed.
Lemma accepts_alone d s x : s_next s = None -> (accepts d s x <-> accepts_one d s x).
Proof. intros N. unfold accepts. rewrite alternatives_eq, N. split; [intros (a & [<-|[]] & H); exact H|intros H; exists s; split; [left; reflexivity|exact H]]. Qed.
Lemma select_hopeless_accepts d s k : hopeless_selector s -> s_next s = None -> ~ accepts d s (DElement k).
Proof. intros H N A. apply (accepts_alone d s _ N) in A. eapply (hopeless_nothing d s k H); [|exact A]. reflexivity. Qed.

(* what a stored element reports, by its keys *)
Lemma reported d k e : reachable normal d -> get_elementdata d k = Some e -> exists n, refs_ok d (e_type e) n /\
  r_declaration_key e = Ok (en_dec n) /\ r_class_key e = Ok (en_class n) /\ r_subset_key e = Ok (en_subset n) /\ r_processor_key e = Ok (en_proc n) /\
  r_declaration d e = Ok (obind (en_dec n) (get_declaration d)) /\ r_set d e = Ok (obind (obind (en_dec n) (get_declaration d)) d_set) /\
  r_subset d e = Ok (obind (obind (en_dec n) (get_declaration d)) (fun dec => obind (en_subset n) (d_get_subset dec))) /\
  r_class d e = Ok (obind (en_class n) (fun ck => obind (obind (en_dec n) (get_declaration d)) (fun dec => match en_subset n with Some _ => d_get_subclass dec ck | None => d_get_class dec ck end))) /\
  r_processor d e = Ok (option_map pr_id (obind (en_proc n) (get_processor d))).
Proof.
  intros R G. destruct (reachable_full _ R) as (_ & _ & _ & EO). destruct (EO _ _ G) as (p & n & A & F & RO). exists n. split; [exact RO|].
  rewrite (rep_dec e p n A F), (rep_class_key e p n A F), (rep_subset_key e p n A F), (rep_proc_key e p n A F), (rep_declaration d e p n A F), (rep_set d e p n A F), (rep_subset d e p n A F), (rep_class d e p n A F), (rep_proc d e p n A F).
  auto 10.
Qed.

(* ================================================================ C29 *)
(* Partial: for queries that name the set (or ask for none) and an element type with an annotation type (for features with a subset: the
   type of the element they belong to). Missing: the other queries, see the refutations. *)
Theorem C29_compiled_query_partial : forall d q s t a sn k e, reachable normal d -> from_query d q = Ok s ->
  asks_set q sn -> typed_by q t -> et_annotationtype t = Some a -> get_elementdata d k = Some e ->
  (accepts d s (DElement k) <-> satisfies d q e /\ exists dec, r_declaration d e = Ok (Some dec) /\ d_type dec = a).
Proof.
  intros d q s t a sn k e RN FQ QS TB AT G. pose proof (normal_any _ RN) as RA. destruct (reachable_full _ RN) as (_ & VO & _ & _).
  destruct (reported _ _ _ RN G) as (n & [R1 R2 R3 R4] & K1 & K2 & K3 & K4 & V0 & V1 & V2 & V3 & V4).
  destruct (from_query_shape _ _ _ FQ) as (NX & DT & _ & _ & _ & _ & _ & SS & _).
  assert (SET : s_set s = encode_set d (CIs t) sn) by (rewrite SS, QS; unfold typed_by in TB; destruct sn; destruct (q_subset q); rewrite TB; reflexivity).
  assert (MS : forall v, meets (q_set q) v <-> v = sn) by (intros v; rewrite QS; destruct sn; reflexivity).
  destruct (encode_set_spec d t a sn RA AT) as [(dk & dec & E & GD & TD & SD)|(E & NO)].
  2:{ split.
      - intros A. exfalso. eapply select_hopeless_accepts; [|exact NX|exact A]. left. red. congruence.
      - intros (ST & dec & D & TD). exfalso. destruct ST as [_ _ (v & Q & M) _ _ _]. apply MS in M. subst v. rewrite V0 in D. rewrite V1 in Q. injection D as D. rewrite D in Q. cbn in Q. injection Q as Q.
        destruct (en_dec n) as [dk|]; [|discriminate D]. cbn in D. eapply NO; eassumption. }
  pose proof (VO dk dec GD) as WF.
  pose proof (from_query_known d q s t sn dk dec FQ TB QS E GD) as ->. clear SET SS NX DT. rewrite accepts_alone; [|reflexivity].
  cbn [accepts_one s_datatypes s_elementtype s_elementgroup s_set s_subset s_class s_processor s_annotator s_annotatortype].
  assert (KEY : en_dec n = Some dk -> forall v c o, (forall x, o = Some x -> exists y, v_get v dec x = Some y) -> (meets_read (coded (v_key v dec) c) (Ok o) <-> meets c (obind o (v_get v dec)))).
  { intros _ v c o H. apply coded_spec; [|exact H]. intros x j. split; [apply v_key_inv, WF|apply v_get_inv, WF]. }
  assert (SUB : en_dec n = Some dk -> (meets_read (coded (d_subset_key dec) (q_subset q)) (r_subset_key e) <-> value_meets (q_subset q) (r_subset d e))).
  { intros D. rewrite (value_eq _ _ _ V2), K3, D. cbn [obind]. rewrite GD. cbn [obind]. apply (KEY D VSubset). intros sk H. destruct (R4 sk H) as (_ & dk' & dec' & c & D' & G' & V). exists c. cbn. congruence. }
  assert (CLS : en_dec n = Some dk -> meets (q_elementtype q) (Some (e_type e)) -> value_meets (q_subset q) (r_subset d e) ->
    (meets_read (coded (match q_subset q with CIs _ | CSome => match coded (d_subset_key dec) (q_subset q) with CIs _ | CSome => d_subclass_key dec | _ => d_class_key dec end | _ => d_class_key dec end) (q_class q)) (r_class_key e)
      <-> value_meets (q_class q) (r_class d e))).
  { intros D TY SB. rewrite (value_eq _ _ _ V3), K2, D. cbn [obind]. rewrite GD. cbn [obind]. apply SUB in SB; [|exact D]. rewrite K3 in SB.
    assert (X : (exists sk, en_subset n = Some sk /\ (match q_subset q with CIs _ | CSome => match coded (d_subset_key dec) (q_subset q) with CIs _ | CSome => d_subclass_key dec | _ => d_class_key dec end | _ => d_class_key dec end) = d_subclass_key dec) \/
                (e_type e <> ET_Feature /\ (match q_subset q with CIs _ | CSome => match coded (d_subset_key dec) (q_subset q) with CIs _ | CSome => d_subclass_key dec | _ => d_class_key dec end | _ => d_class_key dec end) = d_class_key dec)).
    { unfold typed_by in TB. destruct (q_subset q) as [|x| | |] eqn:QQ; cbn [coded] in *.
      - right. rewrite TB in TY. cbn in TY. injection TY as ->. split; [eapply not_feature, AT|reflexivity].
      - left. destruct (d_subset_key dec x) as [sk|]; (destruct SB as [SB|(w & Q & M)]; [discriminate|]); [|destruct M]. injection Q as <-. exists sk. auto.
      - left. destruct SB as [SB|(w & Q & M)]; [discriminate|]. injection Q as <-. destruct (en_subset n) as [sk|]; [|cbn in M; congruence]. eauto.
      - right. rewrite TB in TY. cbn in TY. injection TY as ->. split; [eapply not_feature, AT|reflexivity].
      - exfalso. destruct SB as [SB|(w & Q & M)]; [discriminate|destruct M]. }
    destruct X as [(sk & ES & ->)|(NF & ->)].
    - rewrite ES. destruct (R4 sk ES) as (FT & _). apply (KEY D VSubclass). intros ck H. destruct (R2 ck H) as (dk' & dec' & c & D' & G' & V). rewrite FT in V. cbn in V. exists c. cbn. congruence.
    - assert (ES : en_subset n = None) by (destruct (en_subset n) as [sk|]; [destruct (R4 sk eq_refl); congruence|reflexivity]). rewrite ES. apply (KEY D VClass).
      intros ck H. destruct (R2 ck H) as (dk' & dec' & c & D' & G' & V). destruct (et_eqb_spec (e_type e) ET_Feature); [congruence|]. exists c. cbn. congruence. }
  assert (PRC : meets_read (coded (get_processor_key_by_id d) (q_processor q)) (r_processor_key e) <-> value_meets (q_processor q) (r_processor d e)).
  { rewrite (value_eq _ _ _ V4), K4. apply proc_coded; [exact RA|]. intros pk H. apply R3, H. }
  assert (ST : en_dec n = Some dk -> value_meets (q_set q) (r_set d e)).
  { intros D. rewrite (value_eq _ _ _ V1), D. cbn [obind]. rewrite GD. apply MS. exact SD. }
  split.
  - intros (_ & e' & G' & A1 & A2 & A3 & A4 & A5 & A6 & _). rewrite G in G'. injection G' as <-.
    assert (D : en_dec n = Some dk) by (rewrite (read_eq _ _ _ K1) in A3; exact A3). split; [|exists dec; split; [rewrite V0, D; cbn; rewrite GD; reflexivity|exact TD]].
    apply SUB in A4; [|exact D]. apply CLS in A5; [|exact D|exact A2|exact A4]. apply PRC in A6. constructor; auto.
  - intros ([B1 B2 B3 B4 B5 B6] & dec' & D' & TD').
    assert (D : en_dec n = Some dk).
    { rewrite V0 in D'. injection D' as D'. destruct (en_dec n) as [j|] eqn:EN; [|discriminate D']. cbn in D'. rewrite (value_eq _ _ _ V1), MS in B3. cbn [obind] in B3. rewrite D' in B3. cbn in B3.
      assert (X : get_declaration_key_by_id d (index_id a sn) = Some j) by (apply (C07_found_by_type_and_set _ _ _ _ RA); eauto).
      assert (Y : get_declaration_key_by_id d (index_id a sn) = Some dk) by (apply (C07_found_by_type_and_set _ _ _ _ RA); eauto). congruence. }
    split; [right; left; reflexivity|]. exists e. split; [exact G|]. split; [exact B2|]. split; [exact B1|]. split; [rewrite (read_eq _ _ _ K1); exact D|].
    split; [apply SUB; assumption|]. split; [apply CLS; assumption|]. split; [apply PRC, B5|]. split; left; reflexivity.
Qed.
Print Assumptions C29_compiled_query_partial.
(* for a query about elements of one type the declaration is always of the right type *)
Theorem C29_compiled_query_of_type_partial : forall d q s t a sn k e, reachable normal d -> from_query d q = Ok s ->
  q_set q = CIs sn -> q_elementtype q = CIs t -> et_annotationtype t = Some a -> (q_subset q = CAny \/ q_subset q = CNone) -> get_elementdata d k = Some e ->
  (accepts d s (DElement k) <-> satisfies d q e).
Proof.
  intros d q s t a sn k e RN FQ QS QT AT QB G. assert (TB : typed_by q t) by (unfold typed_by; destruct QB as [-> | ->]; exact QT).
  rewrite (C29_compiled_query_partial d q s t a (Some sn) k e RN FQ QS TB AT G). split; [intros (X & _); exact X|]. intros X. split; [exact X|]. destruct X as [X1 _ X2 _ _ _].
  destruct (reported _ _ _ RN G) as (n & [R1 R2 R3 R4] & K1 & K2 & K3 & K4 & V0 & V1 & V2 & V3 & V4). rewrite (value_eq _ _ _ V1), QS in X2. cbn in X2. rewrite QT in X1. cbn in X1. injection X1 as X1.
  destruct (en_dec n) as [dk|] eqn:D; [|discriminate X2]. destruct (R1 dk eq_refl) as (dec & GD & TD). exists dec. rewrite V0. cbn. rewrite GD. split; [reflexivity|]. apply TD. congruence.
Qed.
Print Assumptions C29_compiled_query_of_type_partial.
(* without a set: classes can then only be asked for as present or absent *)
Theorem C29_without_set_partial : forall d q s k e, reachable normal d -> from_query d q = Ok s -> q_set q = CAny -> (forall c, q_class q <> CIs c) ->
  get_elementdata d k = Some e -> (q_class q = CAny \/ ~ bare_feature e) -> (accepts d s (DElement k) <-> satisfies d q e).
Proof.
  intros d q s k e RN FQ QS QC G NB. pose proof (normal_any _ RN) as RA.
  destruct (reported _ _ _ RN G) as (n & [R1 R2 R3 R4] & K1 & K2 & K3 & K4 & V0 & V1 & V2 & V3 & V4).
  destruct (from_query_shape _ _ _ FQ) as (NX & DT & ET & EG & PR & AN & AY & SS & SX & SB & CL). rewrite QS in SS.
  rewrite (accepts_alone _ _ _ NX). cbn [accepts_one]. rewrite DT, ET, EG, PR, AN, AY, CL, SS.
  assert (SUB : meets_read (s_subset s) (r_subset_key e) <-> value_meets (q_subset q) (r_subset d e)).
  { rewrite (value_eq _ _ _ V2), K3. assert (X : en_subset n = None <-> obind (obind (en_dec n) (get_declaration d)) (fun dec => obind (en_subset n) (d_get_subset dec)) = None).
    { destruct (en_subset n) as [sk|]; [|destruct (obind (en_dec n) (get_declaration d)); cbn; tauto]. destruct (R4 sk eq_refl) as (_ & dk & dec & c & D & GD & V). rewrite D. cbn. rewrite GD. cbn. rewrite V. split; discriminate. }
    destruct (q_subset q) as [|x| | |].
    - rewrite SB. rewrite (read_eq _ _ (en_subset n) eq_refl). cbn. tauto.
    - destruct (SX x eq_refl) as (dk & Q & _). congruence.
    - rewrite SB. rewrite (read_eq _ _ (en_subset n) eq_refl). cbn [meets]. tauto.
    - rewrite SB. rewrite (read_eq _ _ (en_subset n) eq_refl). cbn [meets]. tauto.
    - rewrite SB. rewrite (read_eq _ _ (en_subset n) eq_refl). cbn. tauto. }
  assert (CLS : meets_read match q_class q with CIs c => match CAny : cmp nat with CIs dk => match obind (get_declaration d dk) (fun dec => match s_subset s with CIs _ | CSome => d_subclass_key dec c | _ => d_class_key dec c end) with Some k => CIs k | None => CUnmatchable end | _ => CUnmatchable end | CAny => CAny | CSome => CSome | CNone => CNone | CUnmatchable => CUnmatchable end (r_class_key e)
     <-> value_meets (q_class q) (r_class d e)).
  { rewrite (value_eq _ _ _ V3), K2.
    assert (X : ~ bare_feature e -> (en_class n = None <-> obind (en_class n) (fun ck => obind (obind (en_dec n) (get_declaration d)) (fun dec => match en_subset n with Some _ => d_get_subclass dec ck | None => d_get_class dec ck end)) = None)).
    { intros B. destruct (en_class n) as [ck|] eqn:EC; [|cbn; tauto]. destruct (C15_class_resolves_partial d k e ck RN G B K2) as (c & C). rewrite V3 in C. injection C as C. cbn [obind] in C |- *. rewrite C. split; discriminate. }
    destruct (q_class q) as [|x| | |] eqn:Q; [|destruct (QC x eq_refl)|..].
    - rewrite (read_eq _ _ (en_class n) eq_refl). cbn. tauto.
    - rewrite (read_eq _ _ (en_class n) eq_refl). cbn [meets]. destruct NB as [NB|NB]; [discriminate|]. specialize (X NB). tauto.
    - rewrite (read_eq _ _ (en_class n) eq_refl). cbn [meets]. destruct NB as [NB|NB]; [discriminate|]. specialize (X NB). tauto.
    - rewrite (read_eq _ _ (en_class n) eq_refl). cbn. tauto. }
  assert (PRC : meets_read (coded (get_processor_key_by_id d) (q_processor q)) (r_processor_key e) <-> value_meets (q_processor q) (r_processor d e)).
  { rewrite (value_eq _ _ _ V4), K4. apply proc_coded; [exact RA|]. intros pk H. apply R3, H. }
  split.
  - intros (_ & e' & G' & A1 & A2 & _ & A4 & A5 & A6 & _). rewrite G in G'. injection G' as <-. constructor; [exact A2|exact A1|rewrite QS; eexists; split; [exact V1|exact I]|apply CLS, A5|apply PRC, A6|apply SUB, A4].
  - intros [B1 B2 B3 B4 B5 B6]. split; [right; left; reflexivity|]. exists e. split; [exact G|]. split; [exact B2|]. split; [exact B1|]. split; [left; reflexivity|].
    split; [apply SUB, B6|]. split; [apply CLS, B4|]. split; [apply PRC, B5|]. split; left; reflexivity.
Qed.
Print Assumptions C29_without_set_partial.

(* a document with a feature (key 17) and a sense annotation in no set (key 18) *)
Definition query_doc : document := match exec fuel1 ex_doc [OAddElementTo 2 (e_attr ET_Feature [A_Subset "gender"; A_Class "f"]); OAddElementTo 3 (e_attr ET_SenseAnnotation [A_Class "s1"])] with Some d => d | None => ex_doc end.
Lemma query_doc_reachable : reachable normal query_doc.
Proof. apply (exec_reachable fuel1 [OAddElementTo 2 (e_attr ET_Feature [A_Subset "gender"; A_Class "f"]); OAddElementTo 3 (e_attr ET_SenseAnnotation [A_Class "s1"])] ex_doc); [exact ex_reachable|vm_compute; reflexivity]. Qed.
Definition ask (t : ElementType) : query := qb_element q_select (CIs t).
Definition ask_feature : query := qb_class (qb_subset (qb_contexttype (qb_set (ask ET_Feature) (CIs "posset"%string)) (CIs ET_PosAnnotation)) (CIs "gender"%string)) (CIs "f"%string).
Definition ask_pos : query := qb_processor (qb_class (qb_set (ask ET_PosAnnotation) (CIs "posset"%string)) (CIs "adj"%string)) (CIs "proc1"%string).
Lemma sat_check d q e ty : e_type e = ty -> meets (q_elementtype q) (Some ty) -> meets_group (q_elementgroup q) ty ->
  (exists v, r_set d e = Ok v /\ meets (q_set q) v) -> (exists v, r_class d e = Ok v /\ meets (q_class q) v) -> (exists v, r_processor d e = Ok v /\ meets (q_processor q) v) ->
  (exists v, r_subset d e = Ok v /\ meets (q_subset q) v) -> satisfies d q e.
Proof. intros <- A B C D E F. constructor; assumption. Qed.
Ltac sat := eapply sat_check; [reflexivity|try reflexivity; exact I|exact I|eexists; split; [vm_compute; reflexivity|vm_compute; auto; try discriminate]..].
Ltac not_sat f := let H := fresh in intros H; apply f in H; destruct H as (? & H & ?); vm_compute in H; injection H as <-; discriminate.
Example C29_nonvacuous :
  (exists s e5 e8, from_query ex_doc ask_pos = Ok s /\ typed_by ask_pos ET_PosAnnotation /\ et_annotationtype ET_PosAnnotation = Some AT_POS /\
     get_elementdata ex_doc 5 = Some e5 /\ satisfies ex_doc ask_pos e5 /\ get_elementdata ex_doc 8 = Some e8 /\ ~ satisfies ex_doc ask_pos e8) /\
  (exists s e17, from_query query_doc ask_feature = Ok s /\ typed_by ask_feature ET_PosAnnotation /\ get_elementdata query_doc 17 = Some e17 /\ satisfies query_doc ask_feature e17).
Proof.
  split.
  - eexists _, _, _. split; [vm_compute; reflexivity|]. split; [reflexivity|]. split; [reflexivity|]. split; [vm_compute; reflexivity|]. split; [sat|]. split; [vm_compute; reflexivity|]. not_sat sat_class.
  - eexists _, _. split; [vm_compute; reflexivity|]. split; [reflexivity|]. split; [vm_compute; reflexivity|]. sat.
Qed.
Lemma not_accepted d s k : matches s d (DElement k) = Ok false -> ~ accepts d s (DElement k).
Proof. intros M A. apply (matches_spec _ _ _ _ M) in A. discriminate. Qed.
Lemma accepted d s k : matches s d (DElement k) = Ok true -> accepts d s (DElement k).
Proof. intros M. apply (matches_spec _ _ _ _ M). reflexivity. Qed.
(* a set without an element type; a class without a set; a set for features without subset; no set, where the document has no
   declaration without set: the elements satisfy the query but are not selected *)
Definition missed (d : document) (q : query) (k : nat) : Prop :=
  exists s e, from_query d q = Ok s /\ get_elementdata d k = Some e /\ satisfies d q e /\ ~ accepts d s (DElement k).
Theorem C29_missed_refuted :
  missed query_doc (qb_set q_select (CIs "posset"%string)) 5 /\
  missed query_doc (qb_class (ask ET_PosAnnotation) (CIs "adj"%string)) 5 /\
  missed query_doc (qb_set (ask ET_Feature) (CIs "posset"%string)) 17 /\
  missed query_doc (qb_set (ask ET_Sentence) CNone) 10 /\ reachable normal query_doc.
Proof.
  split; [|split; [|split; [|split; [|exact query_doc_reachable]]]]; (eexists _, _; split; [vm_compute; reflexivity|]; split; [vm_compute; reflexivity|]; split; [sat|]; eapply not_accepted; vm_compute; reflexivity).
Qed.
Print Assumptions C29_missed_refuted.
(* "has a set" selects elements with a declaration, even if that has no set *)
Theorem C29_wrong_refuted : exists d q s k e, reachable normal d /\ from_query d q = Ok s /\ get_elementdata d k = Some e /\ q_set q = CSome /\ accepts d s (DElement k) /\ r_set d e = Ok None.
Proof.
  exists query_doc, (qb_set q_select CSome). eexists. exists 18. eexists. split; [exact query_doc_reachable|]. split; [vm_compute; reflexivity|]. split; [vm_compute; reflexivity|]. split; [reflexivity|].
  split; [eapply accepted; vm_compute; reflexivity|vm_compute; reflexivity].
Qed.
Print Assumptions C29_wrong_refuted.

(* ================================================================ C30 *)
Lemma unknown_hopeless d q s : reachable normal d -> from_query d q = Ok s -> unknown_set d q \/ unknown_class d q \/ unknown_processor d q -> hopeless_selector s.
Proof.
  intros RN FQ U. pose proof (normal_any _ RN) as RA. destruct (reachable_full _ RN) as (_ & VO & _ & _). destruct (from_query_shape _ _ _ FQ) as (NX & DT & ET & EG & PR & AN & AY & SS & SX & SB & CL).
  unfold hopeless_selector, hopeless. destruct U as [(x & Q & U)|[(x & Q & U)|(x & Q & U)]].
  - left. rewrite SS, Q. unfold encode_set. destruct (match q_subset q with CSome | CIs _ => q_contexttype q | _ => q_elementtype q end) as [|t| | |]; try reflexivity.
    destruct (et_annotationtype t) as [a|]; [|reflexivity]. destruct (get_declaration_key_by_id d (index_id a (Some x))) as [k|] eqn:E; [|reflexivity]. apply (C07_found_by_type_and_set _ _ _ _ RA) in E. destruct E as (dec & G & _ & S). destruct (U _ _ G S).
  - right. left. rewrite CL, Q. destruct (s_set s) as [|dk| | |]; try reflexivity. destruct (get_declaration d dk) as [dec|] eqn:G; [|reflexivity]. cbn [obind]. pose proof (VO dk dec G) as WF.
    assert (K1 : d_class_key dec x = None) by (destruct (d_class_key dec x) as [ck|] eqn:E; [|reflexivity]; apply (v_key_inv VClass dec x ck WF) in E; destruct (U dk dec ck G); contradiction).
    assert (K2 : d_subclass_key dec x = None) by (destruct (d_subclass_key dec x) as [ck|] eqn:E; [|reflexivity]; apply (v_key_inv VSubclass dec x ck WF) in E; destruct (U dk dec ck G); contradiction).
    rewrite K1, K2. destruct (s_subset s); reflexivity.
  - right. right. rewrite PR, Q. cbn. destruct (get_processor_key_by_id d x) as [k|] eqn:E; [|reflexivity]. apply (C03_processor_by_id _ _ _ RA) in E. destruct E as (p & G & E). destruct (U _ _ G E).
Qed.
Theorem C30_unknown_selects_nothing : forall fuel d q s key r inclusive spanrefs l, reachable normal d -> from_query d q = Ok s ->
  unknown_set d q \/ unknown_class d q \/ unknown_processor d q ->
  select_data_by_key fuel d key s r inclusive spanrefs = Ok l -> l = [].
Proof. intros fuel d q s key r i sp l RN FQ U. apply collect_hopeless. eapply unknown_hopeless; eassumption. Qed.
Print Assumptions C30_unknown_selects_nothing.
Theorem C30_unknown_is_unsatisfied : forall d q k e, reachable normal d -> get_elementdata d k = Some e ->
  unknown_set d q \/ unknown_class d q \/ unknown_processor d q -> ~ satisfies d q e.
Proof.
  intros d q k e RN G U [_ _ S3 S4 S5 _]. destruct (reported _ _ _ RN G) as (n & _ & _ & _ & _ & _ & _ & V1 & _ & V3 & V4).
  destruct U as [(x & Q & U)|[(x & Q & U)|(x & Q & U)]].
  - rewrite (value_eq _ _ _ V1), Q in S3. cbn in S3. destruct (en_dec n) as [dk|]; [|discriminate]. cbn in S3. destruct (get_declaration d dk) as [dec|] eqn:GD; [|discriminate]. exact (U _ _ GD S3).
  - rewrite (value_eq _ _ _ V3), Q in S4. cbn in S4. destruct (en_class n) as [ck|]; [|discriminate]. destruct (en_dec n) as [dk|]; [|discriminate]. cbn in S4. destruct (get_declaration d dk) as [dec|] eqn:GD; [|discriminate]. cbn in S4.
    destruct (U dk dec ck GD) as (U1 & U2). destruct (en_subset n); contradiction.
  - rewrite (value_eq _ _ _ V4), Q in S5. cbn in S5. destruct (en_proc n) as [pk|]; [|discriminate]. cbn in S5. destruct (get_processor d pk) as [p|] eqn:GP; [|discriminate]. cbn in S5. injection S5 as S5. exact (U _ _ GP S5).
Qed.
Print Assumptions C30_unknown_is_unsatisfied.
Example C30_nonvacuous : reachable normal ex_doc /\ exists s, from_query ex_doc (qb_processor (ask ET_Word) (CIs "nobody"%string)) = Ok s /\
  unknown_processor ex_doc (qb_processor (ask ET_Word) (CIs "nobody"%string)) /\ select_data_by_key fuel1 ex_doc 0 s RAlways false true = Ok [].
Proof.
  split; [exact ex_reachable|]. eexists. split; [vm_compute; reflexivity|]. split; [|vm_compute; reflexivity].
  exists "nobody"%string. split; [reflexivity|]. intros k pr G E. assert (X : get_processor_key_by_id ex_doc "nobody" = Some k) by (apply (C03_processor_by_id _ _ _ ex_reachable_any); eauto). vm_compute in X. discriminate.
Qed.

(* ================================================================ C32 *)
(* Partial: type, group, set, class, processor and subset are applied, except the criterion "has a set" and the criterion
   "has a class" on features without subset. Missing: annotator, annotator type and confidence, see the refutation. *)
Theorem C32_criteria_applied_partial : forall d q s k e, reachable normal d -> from_query d q = Ok s -> get_elementdata d k = Some e ->
  accepts d s (DElement k) -> q_set q <> CSome -> (q_class q <> CSome \/ ~ bare_feature e) -> satisfies d q e.
Proof.
  intros d q s k e RN FQ G A NS NC. pose proof (normal_any _ RN) as RA.
  destruct (reported _ _ _ RN G) as (n & RO & K1 & K2 & K3 & K4 & V0 & V1 & V2 & V3 & V4). pose proof RO as [R1 R2 R3 R4].
  destruct (from_query_shape _ _ _ FQ) as (NX & DT & ET & EG & PR & AN & AY & SS & SX & SB & CL).
  assert (HP : ~ hopeless_selector s) by (intros H; eapply select_hopeless_accepts; eassumption).
  pose proof A as A0. apply (accepts_alone _ _ _ NX) in A0. destruct A0 as (_ & e' & G' & A1 & A2 & A3 & A4 & A5 & A6 & _). rewrite G in G'. injection G' as <-.
  assert (SRC : forall o, asks_set q o -> satisfies d q e).
  { intros o Q. assert (X : exists t a, typed_by q t /\ et_annotationtype t = Some a).
    { assert (E : s_set s = encode_set d (match q_subset q with CSome | CIs _ => q_contexttype q | _ => q_elementtype q end) o) by (rewrite SS, Q; destruct o; reflexivity).
      unfold typed_by. destruct (match q_subset q with CSome | CIs _ => q_contexttype q | _ => q_elementtype q end) as [|t| | |] eqn:SR; cbn in E; try (exfalso; apply HP; left; exact E).
      destruct (et_annotationtype t) as [a|] eqn:AT; [|exfalso; apply HP; left; exact E]. exists t, a. destruct (q_subset q); auto. }
    destruct X as (t & a & TB & AT). apply (C29_compiled_query_partial d q s t a o k e RN FQ Q TB AT G), A. }
  destruct (q_set q) as [|sn| | |] eqn:Q; [|apply (SRC (Some sn)), Q|congruence|apply (SRC None), Q|exfalso; apply HP; left; exact SS].
  rewrite ET in A2. rewrite EG in A1. constructor; [exact A2|exact A1|rewrite Q; eexists; split; [exact V1|exact I]|..].
  - rewrite (value_eq _ _ _ V3). rewrite CL, SS, K2 in A5. destruct (q_class q) as [|c| | |] eqn:QC; [exact I|..].
    + destruct A5 as [A5|(v & _ & [])]. discriminate.
    + destruct A5 as [A5|(v & Q5 & A5)]; [discriminate|]. injection Q5 as <-. destruct (en_class n) as [ck|] eqn:EC; [|cbn in A5; congruence]. destruct NC as [NC|NC]; [congruence|].
      destruct (C15_class_resolves_partial d k e ck RN G NC K2) as (c & C). rewrite V3 in C. injection C as C. cbn [meets obind] in C |- *. rewrite C. discriminate.
    + destruct A5 as [A5|(v & Q5 & A5)]; [discriminate|]. injection Q5 as <-. cbn in A5. rewrite A5. reflexivity.
    + destruct A5 as [A5|(v & _ & [])]. discriminate.
  - rewrite (value_eq _ _ _ V4). rewrite PR, K4 in A6. apply proc_coded in A6; [exact A6|exact RA|]. intros pk HH. apply R3, HH.
  - rewrite (value_eq _ _ _ V2). rewrite K3 in A4. destruct (q_subset q) as [|x| | |] eqn:QB; [exact I|..].
    + destruct (SX x eq_refl) as (dk & Y & _). congruence.
    + rewrite SB in A4. destruct A4 as [A4|(v & Q4 & A4)]; [discriminate|]. injection Q4 as <-. destruct (en_subset n) as [sk|] eqn:EB; [|cbn in A4; congruence].
      destruct (R4 sk eq_refl) as (_ & dk & dec & c & D & GD & V). rewrite D. cbn [obind]. rewrite GD. cbn. rewrite V. discriminate.
    + rewrite SB in A4. destruct A4 as [A4|(v & Q4 & A4)]; [discriminate|]. injection Q4 as <-. cbn in A4. rewrite A4. destruct (obind (en_dec n) (get_declaration d)); reflexivity.
    + rewrite SB in A4. destruct A4 as [A4|(v & _ & [])]. discriminate.
Qed.
Print Assumptions C32_criteria_applied_partial.
(* so everything a selection by a query returns satisfies these criteria *)
Theorem C32_selected_satisfy_partial : forall fuel d q s key r i k l e, reachable normal d -> from_query d q = Ok s -> q_set q <> CSome -> q_class q <> CSome ->
  select_data_by_key fuel d key s r false false = Ok l -> In i l -> item_key (si_data i) = [k] -> get_elementdata d k = Some e -> satisfies d q e.
Proof.
  intros fuel d q s key r i k l e RN FQ NS NC S I IK G. destruct (from_query_shape _ _ _ FQ) as (NX & DT & _).
  assert (H : ~ hopeless_selector s) by (intros H; apply collect_hopeless in S; [subst l; destruct I|exact H]).
  destruct (C24_walk_happens _ _ _ _ _ _ _ H S) as (w & W). assert (U : usable s) by (intros X; contradiction).
  destruct (C24_select_order _ _ _ _ _ _ _ _ U S W) as (m & C & ->). apply (chosen_in _ _ _ _ C) in I. destruct I as (_ & A).
  eapply C32_criteria_applied_partial; try eassumption; [|left; exact NC]. unfold accepts in *. destruct A as (b & B & A). exists b. split; [exact B|].
  destruct (si_data i) as [t|j|t|j|x]; try discriminate IK; injection IK as ->; exact A.
Qed.
Print Assumptions C32_selected_satisfy_partial.
Example C32_nonvacuous : reachable normal ex_doc /\ exists s l, from_query ex_doc ask_pos = Ok s /\ select_data_by_key fuel1 ex_doc 0 s RAlways false false = Ok l /\ own_keys l = [5].
Proof. split; [exact ex_reachable|]. eexists _, _. split; [vm_compute; reflexivity|]. split; [vm_compute; reflexivity|]. vm_compute; reflexivity. Qed.
(* the criteria on annotator, annotator type and confidence have no effect *)
Definition ignored (d : document) (q : query) (k : nat) : Prop :=
  exists s e l, from_query d q = Ok s /\ get_elementdata d k = Some e /\ ~ satisfies_annotator d q e /\ select_data_by_key fuel1 d 0 s RAlways false true = Ok l /\ In k (own_keys l).
Theorem C32_ignored_refuted : reachable normal ex_doc /\ ignored ex_doc (qb_annotator (ask ET_PosAnnotation) (CIs "nobody"%string)) 5 /\ ignored ex_doc (qb_annotatortype (ask ET_PosAnnotation) (CIs PT_Manual)) 5 /\ ignored ex_doc (qb_confidence (ask ET_PosAnnotation) (CIs 9%N)) 5.
Proof.
  split; [exact ex_reachable|]. split; [|split]; (eexists _, _, _; split; [vm_compute; reflexivity|]; split; [vm_compute; reflexivity|]; split; [|split; [vm_compute; reflexivity|vm_compute; auto]]);
    intros ((v & A & B) & (w & C & D) & E); vm_compute in A, C; injection A as <-; injection C as <-; discriminate.
Qed.
Print Assumptions C32_ignored_refuted.
