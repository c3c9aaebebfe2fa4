(* C51-C52: the events the serialiser writes. The vocabulary is in SerSpec.v. *)
From Coq Require Import String List Bool Arith NArith Lia.
From Verif Require Import Base BaseFacts Types TypesFacts SpecTable Attrib AttribFacts Element Store StoreFacts Metadata Document Select DocOps Xml Parser Serialiser History Spec
  FrameFacts InvFacts DocFacts StoreThms InternFacts EncodeFacts LinkFacts TreeFacts ForestFacts SelSpec SelectFacts Examples PropsEncode PropsLinks PropsSelect NoPanic SpanFacts SerSpec.
Import ListNotations.
Open Scope list_scope.

(* ================================================================ C51 *)
Lemma nested_app a b : nested_events a -> nested_events b -> nested_events (a ++ b).
Proof.
  intros A B. induction A as [|s l _ IH|s l _ IH|n at_ l _ IH|n at_ body l N1 IH1 N2 IH2]; cbn; try (constructor; assumption).
  - exact B.
  - rewrite <- app_assoc. cbn. constructor; assumption.
Qed.
Ltac nest := repeat first [apply nested_text | apply nested_comment | apply nested_empty | apply nested_nil | apply nested_app | assumption].
Lemma nested_pair n a body l : nested_events body -> nested_events l -> nested_events (WStart n a :: body ++ WEnd n :: l).
Proof. apply nested_element. Qed.

(* events that close the open elements, innermost first *)
Fixpoint closes (open : list string) (l : list wevent) : Prop :=
  match open with
  | [] => nested_events l
  | n :: r => exists body rest, l = body ++ WEnd n :: rest /\ nested_events body /\ closes r rest
  end.
Lemma closes_pre a open l : nested_events a -> closes open l -> closes open (a ++ l).
Proof.
  intros A. destruct open as [|n r]; cbn; [intros L; apply nested_app; assumption|]. intros (b & c & -> & B & C). exists (a ++ b), c. rewrite <- app_assoc. split; [reflexivity|].
  split; [apply nested_app; assumption|exact C].
Qed.
Lemma closes_open n a open l : closes (n :: open) l -> closes open (WStart n a :: l).
Proof.
  intros (b & c & -> & B & C). destruct open as [|m r]; cbn in *; [constructor; assumption|].
  destruct C as (b2 & c2 & -> & B2 & C2). exists (WStart n a :: b ++ WEnd n :: b2), c2. split; [cbn; rewrite <- app_assoc; reflexivity|]. split; [constructor; assumption|exact C2].
Qed.
Lemma w_close_closes n : forall stack x l, w_close n stack = Ok x -> closes (map fst (snd x)) l -> closes (map fst stack) (fst x ++ l).
Proof.
  induction n as [|n IH]; intros stack x l H C; cbn [w_close] in H; [injection H as <-; exact C|].
  destruct stack as [|[tag et] r]; [discriminate|]. apply rbind_ok in H. destruct H as (y & Y & H). injection H as <-. cbn [fst snd map] in *.
  specialize (IH _ _ _ Y C). cbn [closes]. exists []. eexists. split; [cbn [app]; reflexivity|]. split; [constructor|]. rewrite <- app_assoc. apply closes_pre; [|exact IH].
  destruct (is_markup et); [constructor|]. unfold wnl. nest.
Qed.
Lemma closes_final stack : closes (map fst stack) (map (fun p : string * ElementType => WEnd (fst p)) stack).
Proof. induction stack as [|p r IH]; cbn; [constructor|]. exists []. eexists. split; [reflexivity|]. split; [constructor|exact IH]. Qed.
Lemma w_items_closes O d mask items : forall depth stack l, w_items O d mask depth stack items = Ok l -> closes (map fst stack) l.
Proof.
  induction items as [|i items IH]; intros depth stack l H; cbn [w_items] in H; [injection H as <-; apply closes_final|].
  apply rbind_ok in H. destruct H as ([closing st] & W & H). pose proof (w_close_closes _ _ _ (l) W) as CL. cbn [fst snd] in CL.
  assert (ST : forall m, closes (map fst st) m -> closes (map fst stack) (closing ++ m)) by (intros m; apply (w_close_closes _ _ _ m W)). clear CL.
  destruct (si_data i) as [s|k|s|k|e].
  - apply rbind_ok in H. destruct H as (y & Y & H). injection H as <-. apply ST. apply (closes_pre [WText s]); [nest|eapply IH, Y].
  - destruct (get_elementdata d k) as [e|].
    + apply rbind_ok in H. destruct H as (a & _ & H).
      assert (TL : nested_events (if nl_after_start (e_type e) then [wnl] else [])) by (destruct (nl_after_start (e_type e)); unfold wnl; nest).
      destruct (e_data e); apply rbind_ok in H; destruct H as (y & Y & H); injection H as <-; apply ST; apply IH in Y.
      * apply (closes_pre [WEmpty (et_as_str (e_type e)) a]); [nest|]. apply closes_pre; [exact TL|exact Y].
      * apply closes_open. cbn [map fst] in Y. apply closes_pre; [exact TL|exact Y].
    + apply rbind_ok in H. destruct H as (y & Y & H). injection H as <-. apply ST. eapply IH, Y.
  - apply rbind_ok in H. destruct H as (y & Y & H). injection H as <-. apply ST. apply (closes_pre [WComment s]); [nest|eapply IH, Y].
  - apply rbind_ok in H. destruct H as (y & Y & H). injection H as <-. apply ST. eapply IH, Y.
  - apply rbind_ok in H. destruct H as (y & Y & H). injection H as <-. apply ST. eapply IH, Y.
Qed.
(* The XML of any element of any document. *)
Theorem C51_element_xml_nested : forall fuel O d key l, element_xml fuel O d key = Ok l -> nested_events l.
Proof. intros fuel O d key l H. unfold element_xml, xml_elements in H. apply rbind_ok in H. destruct H as (items & _ & H). apply w_items_closes in H. exact H. Qed.
Print Assumptions C51_element_xml_nested.

Lemma w_annotators_nested d ps : forall l, w_annotators d ps = Ok l -> nested_events l.
Proof.
  induction ps as [|pk ps IH]; intros l H; cbn in H; [injection H as <-; constructor|]. destruct (get_processor d pk); [|discriminate].
  apply rbind_ok in H. destruct H as (x & X & H). injection H as <-. nest. apply IH, X.
Qed.
Lemma w_declaration_list_nested d ds : forall l, w_declaration_list d ds = Ok l -> nested_events l.
Proof.
  induction ds as [|[dec|] ds IH]; intros l H; cbn in H; [injection H as <-; constructor| |apply IH, H].
  apply rbind_ok in H. destruct H as (x & X & H). apply rbind_ok in H. destruct H as (y & Y & H). injection H as <-. apply nested_app; [|apply IH, Y].
  unfold w_declaration in X. destruct (d_processors dec) as [|p ps]; [injection X as <-; unfold wnl; nest|]. apply rbind_ok in X. destruct X as (z & Z & X). injection X as <-.
  apply nested_element; [eapply w_annotators_nested, Z|unfold wnl; nest].
Qed.
Lemma w_each_nested f ks : (forall k l, f k = Ok l -> nested_events l) -> forall l, w_each f ks = Ok l -> nested_events l.
Proof.
  intros F. induction ks as [|k ks IH]; intros l H; cbn in H; [injection H as <-; constructor|].
  apply rbind_ok in H. destruct H as (x & X & H). apply rbind_ok in H. destruct H as (y & Y & H). injection H as <-. apply nested_app; [eapply F, X|apply IH, Y].
Qed.
Lemma w_processor_nested d fuel : forall k l, w_processor fuel d k = Ok l -> nested_events l.
Proof.
  induction fuel as [|fuel IH]; intros k l H; cbn [w_processor] in H; [discriminate|]. destruct (get_processor d k) as [p|]; [|injection H as <-; constructor].
  destruct (pr_processors p) as [|c cs]; [injection H as <-; unfold wnl; nest|]. apply rbind_ok in H. destruct H as (x & X & H). injection H as <-.
  apply nested_element; [eapply w_each_nested; [apply IH|exact X]|unfold wnl; nest].
Qed.
Lemma flat_map_nested {A} (f : A -> list wevent) l : (forall x, nested_events (f x)) -> nested_events (flat_map f l).
Proof. intros F. induction l as [|x l IH]; cbn; [constructor|apply nested_app; auto]. Qed.
Lemma w_meta_nested p : nested_events (w_meta p).
Proof. unfold w_meta, wnl. apply (nested_element _ _ [WText (snd p)]); nest. Qed.
Lemma w_metadata_nested fuel d l : w_metadata fuel d = Ok l -> nested_events l.
Proof.
  unfold w_metadata. intros H. apply rbind_ok in H. destruct H as (x & X & H). apply rbind_ok in H. destruct H as (y & Y & H). injection H as <-.
  assert (NX : nested_events x). { unfold w_declarations in X. apply rbind_ok in X. destruct X as (z & Z & X). injection X as <-. apply (nested_element _ _ (wnl :: z)); unfold wnl; nest. eapply w_declaration_list_nested, Z. }
  assert (NY : nested_events y). { unfold w_provenance in Y. apply rbind_ok in Y. destruct Y as (z & Z & Y). injection Y as <-. apply (nested_element _ _ (wnl :: z)); unfold wnl; nest.
    eapply w_each_nested; [apply w_processor_nested|exact Z]. }
  match goal with |- nested_events (WStart ?n ?a :: wnl :: x ++ y ++ ?u ++ ?v ++ _) => replace (WStart n a :: wnl :: x ++ y ++ u ++ v ++ [WEnd "metadata"; wnl]) with (WStart n a :: (wnl :: x ++ y ++ u ++ v) ++ WEnd "metadata" :: [wnl])
    by (cbn; rewrite <- !app_assoc; reflexivity) end.
  apply nested_element; unfold wnl; nest; try (apply flat_map_nested; intros; try apply w_meta_nested). apply flat_map_nested. intros; apply w_meta_nested.
Qed.
(* The XML of a whole document: one FoLiA element, well nested inside. *)
Theorem C51_document_xml_nested : forall fuel O d root l, doc_xml fuel O d root = Ok l ->
  exists attrs body, l = WStart "FoLiA" attrs :: body ++ [WEnd "FoLiA"] /\ nested_events body.
Proof.
  intros fuel O d root l H. unfold doc_xml in H. apply rbind_ok in H. destruct H as (m & M & H). apply rbind_ok in H. destruct H as (b & B & H). injection H as <-.
  eexists _, (wnl :: m ++ b ++ [wnl]). split; [cbn; rewrite <- !app_assoc; reflexivity|]. apply w_metadata_nested in M. apply C51_element_xml_nested in B. unfold wnl. nest.
Qed.
Print Assumptions C51_document_xml_nested.
Definition ex_oracle : oracle := mkOracle (fun _ => None) (fun _ => "0.5"%string).
Example C51_nonvacuous : (exists l, doc_xml fuel1 ex_oracle ex_doc 0 = Ok l /\ length l = 94) /\ (exists l, element_xml fuel1 ex_oracle ex_doc 3 = Ok l /\ length l = 11) /\
  ~ nested_events [WStart "w" []; WStart "t" []; WEnd "w"; WEnd "t"].
Proof.
  split; [eexists; split; vm_compute; reflexivity|]. split; [eexists; split; vm_compute; reflexivity|]. intros H.
  remember [WStart "w" []; WStart "t" []; WEnd "w"; WEnd "t"] as m eqn:E. destruct H as [|s l H|s l H|n a l H|n a body l B L]; try discriminate E. injection E as -> _ E.
  destruct B as [|s b B|s b B|n2 a2 b B|n2 a2 b1 b2 B1 B2]; try discriminate E. injection E as -> _ E. destruct B1; discriminate E.
Qed.

(* ================================================================ C52 *)
Lemma mask_get s k dec : st_get s k = Some dec -> nth_error (default_mask s) k = Some (Nat.eqb (type_count (st_items s) (d_type dec)) 1).
Proof.
  unfold st_get, default_mask. rewrite nth_error_map. destruct (nth_error (st_items s) k) as [o|]; [|discriminate]. intros ->. reflexivity.
Qed.
Lemma filter_one {A} (f : A -> bool) l k x : nth_error l k = Some x -> f x = true ->
  (length (filter f l) = 1 <-> forall j y, nth_error l j = Some y -> f y = true -> j = k).
Proof.
  revert k. induction l as [|a l IH]; intros k N F; [destruct k; discriminate|]. destruct k as [|k]; cbn in N.
  - injection N as ->. cbn [filter]. rewrite F. cbn [length]. split.
    + intros L j y J Y. destruct j as [|j]; [reflexivity|]. exfalso. cbn in J. apply nth_error_In in J. assert (I : In y (filter f l)) by (apply filter_In; auto). destruct (filter f l); [destruct I|cbn in L; lia].
    + intros H. destruct (filter f l) as [|z r] eqn:E; [reflexivity|]. exfalso. assert (I : In z (filter f l)) by (rewrite E; left; reflexivity). apply filter_In in I. destruct I as (I & Z).
      apply In_nth_error in I. destruct I as (j & J). specialize (H (S j) z J Z). discriminate.
  - cbn [filter]. destruct (f a) eqn:FA.
    + cbn [length]. split.
      * intros L. exfalso. apply nth_error_In in N. assert (I : In x (filter f l)) by (apply filter_In; auto). destruct (filter f l); [destruct I|cbn in L; lia].
      * intros H. specialize (H 0 a eq_refl FA). discriminate.
    + rewrite (IH k N F). split; intros H j y J Y.
      * destruct j as [|j]; [cbn in J; congruence|]. f_equal. eapply H; eassumption.
      * specialize (H (S j) y J Y). congruence.
Qed.
Lemma at_eqb_refl t : at_eqb t t = true. Proof. destruct (at_eqb_spec t t); congruence. Qed.
Lemma mask_sole d k dec : get_declaration d k = Some dec ->
  exists b, nth_error (default_mask (doc_decls d)) k = Some b /\ (b = true <-> sole_declaration d k).
Proof.
  intros G. exists (Nat.eqb (type_count (st_items (doc_decls d)) (d_type dec)) 1). split; [apply mask_get, G|]. rewrite Nat.eqb_eq. unfold type_count.
  assert (N : nth_error (st_items (doc_decls d)) k = Some (Some dec)). { unfold get_declaration, st_get in G. destruct (nth_error (st_items (doc_decls d)) k) as [o|]; [|discriminate]. subst o. reflexivity. }
  rewrite (filter_one (has_type (d_type dec)) _ _ _ N (at_eqb_refl _)). split.
  - intros H. exists dec. split; [exact G|]. intros j dec' GJ T. unfold get_declaration, st_get in GJ. destruct (nth_error (st_items (doc_decls d)) j) as [o|] eqn:J; [|discriminate]. subst o.
    eapply H; [exact J|]. cbn. rewrite T. apply at_eqb_refl.
  - intros (dec0 & G0 & H) j y J Y. assert (dec0 = dec) by congruence. subst dec0. destruct y as [dec'|]; [|discriminate]. cbn in Y. destruct (at_eqb_spec (d_type dec') (d_type dec)) as [T|]; [|discriminate].
    apply (H j dec'); [|exact T]. unfold get_declaration, st_get. rewrite J. reflexivity.
Qed.
Lemma plain_attrs_shown O l : exists m, w_plain_attrs O l = Ok m /\ Forall2 (shown O) (filter visible l) m.
Proof.
  induction l as [|a l (m & M & F)]; cbn [w_plain_attrs filter]; [exists []; split; [reflexivity|constructor]|].
  destruct (visible a) eqn:V.
  - assert (D : exists v, a_display O a = Ok v) by (destruct a; cbn in V; try discriminate V; eexists; reflexivity). destruct D as (v & D).
    exists ((ab_as_str (attribtype a), v) :: m). rewrite M. cbn [rbind]. rewrite D. cbn [rbind].
    split; [destruct a; try discriminate V; reflexivity|]. constructor; [split; [reflexivity|exact D]|exact F].
  - exists m. split; [|exact F]. rewrite M. destruct a; try discriminate V; reflexivity.
Qed.
Lemma oattr_given k v : oattr k v = given k v. Proof. reflexivity. Qed.
Lemma elem_attrs_shown O d k e : reachable normal d -> get_elementdata d k = Some e ->
  exists a, elem_attrs O d (default_mask (doc_decls d)) e = Ok a /\ tag_attributes O d e a.
Proof.
  intros R G. destruct (plain_attrs_shown O (e_attribs e)) as (own & PO & FO). unfold elem_attrs. rewrite PO. cbn [rbind].
  destruct (C15_accessors_return _ _ _ R G) as ((s & c & b & p & an & ant & R1 & R2 & R3 & R4 & _) & (ck & sk & dk & pk & K1 & K2 & K3 & K4) & _).
  destruct (C15_references_resolve _ _ _ R G) as (Q1 & _ & _ & Q4).
  unfold w_decoded_attrs, tag_attributes. rewrite K3. cbn [rbind]. destruct dk as [dk|].
  2:{ exists own. cbn [rbind]. rewrite app_nil_r. split; [reflexivity|]. exists own, None, None, None, None. cbn. rewrite app_nil_r. auto 12. }
  destruct (Q1 dk K3) as (dec & GD & _). destruct (mask_sole _ _ _ GD) as (def & -> & SD). cbn [expect rbind].
  rewrite R1, R3, R2, R4, K4. 
  set (set := if negb def && negb (et_eqb (e_type e) ET_Feature) then s else None).
  assert (ES : (if negb def && negb (et_eqb (e_type e) ET_Feature) then Ok s else Ok None) = Ok set) by (unfold set; destruct (negb def && _); reflexivity). rewrite ES. cbn [rbind]. rewrite GD.
  set (isd := match d_processors dec with [x] => match pk with Some y => Nat.eqb x y | None => false end | _ => false end).
  set (proc := if isd then None else p).
  exists (own ++ given "set" set ++ given "subset" b ++ given "class" c ++ given "processor" proc). split.
  { destruct p as [p|]; cbn [rbind]; unfold proc, isd; destruct (d_processors dec) as [|x [|y r]]; try reflexivity; destruct pk as [y|]; try reflexivity; destruct (Nat.eqb x y); reflexivity. }
  exists own, set, b, c, proc. split; [reflexivity|]. split; [exact FO|]. split; [|split; [|split; [reflexivity|split; [reflexivity|split]]]].
  - intros [S|F]; unfold set; [apply SD in S; rewrite S; reflexivity|]. rewrite F. cbn. rewrite andb_false_r. reflexivity.
  - intros NS NF. unfold set. destruct def; [destruct NS; apply SD; reflexivity|]. destruct (et_eqb_spec (e_type e) ET_Feature); [contradiction|]. reflexivity.
  - intros q Q (dec0 & G0 & DP). injection Q as ->. assert (dec0 = dec) by congruence. subst dec0. unfold proc, isd. rewrite DP, Nat.eqb_refl. reflexivity.
  - intros NS. unfold proc. destruct isd eqn:I; [|reflexivity]. exfalso. unfold isd in I. destruct (d_processors dec) as [|x [|]] eqn:DP; try discriminate I. destruct pk as [y|]; [|discriminate I].
    apply Nat.eqb_eq in I. subst y. apply (NS x eq_refl). exists dec. auto.
Qed.

Lemma markup_eq t : is_markup t = markup t. Proof. reflexivity. Qed.
Lemma after_start_eq t : (if nl_after_start t then [wnl] else []) = after_start t.
Proof. unfold nl_after_start, after_start. rewrite markup_eq. destruct (markup t), (et_eqb t ET_TextContent), (et_eqb t ET_PhonContent); reflexivity. Qed.

Section Loop.
Context (O : oracle) (d : document) (R : reachable normal d).
Notation mask := (default_mask (doc_decls d)).
Notation pending := (list (string * ElementType)).
Definition close_all (l : pending) : list wevent := flat_map (fun p => WEnd (fst p) :: after_end false (snd p)) l.
Definition close_last (l : pending) : list wevent := map (fun p => WEnd (fst p)) l.

Lemma w_close_all pend base : w_close (length pend) (pend ++ base) = Ok (close_all pend, base).
Proof. induction pend as [|[tag et] pend IH]; cbn [length app w_close]; [reflexivity|]. rewrite IH. cbn [rbind fst snd close_all flat_map]. reflexivity. Qed.
(* writing the items [w] turns one state of the loop into another *)
Definition writes (p : nat) (stack : pending) (w : list selectitem) (ev : list wevent) (p' : nat) (stack' : pending) : Prop :=
  forall more, w_items O d mask p stack (w ++ more) = (let? y := w_items O d mask p' stack' more in Ok (ev ++ y)).
Lemma writes_trans p s w ev p1 s1 w1 ev1 p2 s2 : writes p s w ev p1 s1 -> writes p1 s1 w1 ev1 p2 s2 -> writes p s (w ++ w1) (ev ++ ev1) p2 s2.
Proof. intros A B more. rewrite <- app_assoc, A, B. destruct (w_items O d mask p2 s2 more); cbn; try reflexivity. rewrite app_assoc. reflexivity. Qed.

Definition item_xml (final : bool) (x : datatype) (l : list wevent) : Prop :=
  match x with
  | DText s => l = [WText s]
  | DComment s => l = [WComment s]
  | DSpanReference _ => l = []
  | DElement c => xml_of O d final c l
  | DAddElement _ => False
  end.
Lemma item_content final x rest l m : item_xml (final && is_nil rest) x l -> xml_content O d final rest m -> xml_content O d final (x :: rest) (l ++ m).
Proof. destruct x; cbn [item_xml]; try (intros ->; cbn [app]; constructor; assumption); try contradiction. constructor; assumption. Qed.

(* the state in which the items at depth n can be written: [pend] are the open elements below depth n *)
Definition ready (n p : nat) (pend : pending) : Prop := p + 1 = n /\ pend = [] \/ n <= p /\ length pend = p - n.
Lemma ready_close n p pend base : ready n p pend -> w_close (p - n) (pend ++ base) = Ok (close_all pend, base).
Proof. intros [(E & ->)|(L & E)]; [replace (p - n) with 0 by lia; reflexivity|rewrite <- E; apply w_close_all]. Qed.
Definition done (n p : nat) (pend : pending) : Prop := n <= p /\ length pend = p - n.

Lemma writes_start n c e a p pend base par cur : ready n p pend -> get_elementdata d c = Some e -> elem_attrs O d mask e = Ok a -> e_data e <> [] ->
  writes p (pend ++ base) [mkItem (DElement c) par cur n] (close_all pend ++ WStart (et_as_str (e_type e)) a :: after_start (e_type e)) n ((et_as_str (e_type e), e_type e) :: base).
Proof.
  intros RD G A NE more. cbn [app w_items si_depth si_data]. rewrite (ready_close _ _ _ _ RD). cbn [rbind]. rewrite G, A. cbn [rbind]. rewrite after_start_eq.
  destruct (e_data e); [congruence|]. destruct (w_items O d mask n ((et_as_str (e_type e), e_type e) :: base) more); cbn [rbind]; try reflexivity. rewrite <- app_assoc. reflexivity.
Qed.
Lemma writes_empty n c e a p pend base par cur : ready n p pend -> get_elementdata d c = Some e -> elem_attrs O d mask e = Ok a -> e_data e = [] ->
  writes p (pend ++ base) [mkItem (DElement c) par cur n] (close_all pend ++ WEmpty (et_as_str (e_type e)) a :: after_start (e_type e)) n base.
Proof.
  intros RD G A NE more. cbn [app w_items si_depth si_data]. rewrite (ready_close _ _ _ _ RD). cbn [rbind]. rewrite G, A. cbn [rbind]. rewrite after_start_eq.
  rewrite NE. destruct (w_items O d mask n base more); cbn [rbind]; try reflexivity. rewrite <- app_assoc. reflexivity.
Qed.
Lemma writes_leaf n x p pend base par cur : ready n p pend -> (forall c, x <> DElement c) -> (forall c, x <> DAddElement c) ->
  exists l, (forall final, item_xml final x l) /\ writes p (pend ++ base) [mkItem x par cur n] (close_all pend ++ l) n base.
Proof.
  intros RD NE NA. destruct x as [s|k|s|k|c].
  - exists [WText s]. split; [reflexivity|]. intros more. cbn [app w_items si_depth si_data]. rewrite (ready_close _ _ _ _ RD). cbn [rbind].
    destruct (w_items O d mask n base more); cbn [rbind]; try reflexivity. rewrite <- app_assoc. reflexivity.
  - destruct (NE k eq_refl).
  - exists [WComment s]. split; [reflexivity|]. intros more. cbn [app w_items si_depth si_data]. rewrite (ready_close _ _ _ _ RD). cbn [rbind].
    destruct (w_items O d mask n base more); cbn [rbind]; try reflexivity. rewrite <- app_assoc. reflexivity.
  - exists []. split; [reflexivity|]. intros more. cbn [app w_items si_depth si_data]. rewrite (ready_close _ _ _ _ RD). cbn [rbind].
    destruct (w_items O d mask n base more); cbn [rbind]; try reflexivity. rewrite app_nil_r. reflexivity.
  - destruct (NA c eq_refl).
Qed.

Definition renders_content (n : nat) (rest : list datatype) (w : list selectitem) : Prop :=
  rest <> [] -> forall p pend base, ready n p pend ->
  exists ev p' pend', done n p' pend' /\ writes p (pend ++ base) w (close_all pend ++ ev) p' (pend' ++ base) /\
    xml_content O d false rest (ev ++ close_all pend') /\ xml_content O d true rest (ev ++ close_last pend').
Lemma content_step n x rest w1 w2 : (forall p pend base, ready n p pend ->
    exists ev p' pend', done n p' pend' /\ writes p (pend ++ base) w1 (close_all pend ++ ev) p' (pend' ++ base) /\
      item_xml false x (ev ++ close_all pend') /\ item_xml true x (ev ++ close_last pend')) ->
  renders_content n rest w2 -> (rest = [] -> w2 = []) -> renders_content n (x :: rest) (w1 ++ w2).
Proof.
  intros H1 H2 E _ p pend base RD. destruct (H1 p pend base RD) as (ev & p1 & pend1 & D1 & W1 & F1 & T1).
  destruct rest as [|y rest].
  - rewrite (E eq_refl), app_nil_r. exists ev, p1, pend1. split; [exact D1|]. split; [exact W1|]. split.
    + rewrite <- (app_nil_r (ev ++ close_all pend1)). apply item_content; [exact F1|constructor].
    + rewrite <- (app_nil_r (ev ++ close_last pend1)). apply item_content; [exact T1|constructor].
  - destruct (H2 ltac:(discriminate) p1 pend1 base (or_intror D1)) as (ev2 & p2 & pend2 & D2 & W2 & F2 & T2).
    exists (ev ++ close_all pend1 ++ ev2), p2, pend2. split; [exact D2|]. split.
    { pose proof (writes_trans _ _ _ _ _ _ _ _ _ _ W1 W2) as W. rewrite <- !app_assoc in W. exact W. }
    split; rewrite <- !app_assoc; rewrite (app_assoc ev); apply item_content; assumption.
Qed.

Lemma content_renders : (forall n k w, walk d RAlways n k w -> 
    (forall j e, get_elementdata d j = Some e -> forall c, ~ In (DAddElement c) (e_data e)) -> forall e, get_elementdata d k = Some e -> renders_content n (e_data e) w /\ (e_data e = [] -> w = [])) /\
  (forall n k t i rest w, walk_data d RAlways n k t i rest w -> 
    (forall j e, get_elementdata d j = Some e -> forall c, ~ In (DAddElement c) (e_data e)) -> (forall c, ~ In (DAddElement c) rest) -> renders_content n rest w /\ (rest = [] -> w = [])).
Proof.
  apply walk_both.
  - intros n k e l G W IH NA e' G'. assert (e' = e) by congruence. subst e'. apply IH; [exact NA|apply (NA _ _ G)].
  - intros n k t i _ _. split; [intros H; congruence|reflexivity].
  - intros n k t i c rest below l _ W1 IH1 W2 IH2 NA NR. split; [|discriminate].
    destruct (IH2 NA (fun x I => NR x (or_intror I))) as (IH & EN). change (mkItem (DElement c) k i n :: below ++ l) with ((mkItem (DElement c) k i n :: below) ++ l).
    apply content_step; [|exact IH|exact EN]. intros p pend base RD.
    assert (GC : exists e, get_elementdata d c = Some e) by (inversion W1; eauto). destruct GC as (e & GC). destruct (elem_attrs_shown O d c e R GC) as (a & A & TA).
    destruct (IH1 NA e GC) as (IHc & ENc). destruct (e_data e) as [|y data] eqn:ED.
    + rewrite (ENc eq_refl). exists (WEmpty (et_as_str (e_type e)) a :: after_start (e_type e)), n, []. split; [split; cbn; lia|]. split; [eapply writes_empty; eassumption|].
      cbn [close_all close_last flat_map map]. rewrite !app_nil_r. split; apply xml_empty; assumption.
    + assert (NE : e_data e <> []) by (rewrite ED; discriminate).
      pose proof (writes_start n c e a p pend base k i RD GC A NE) as WS.
      destruct (IHc ltac:(discriminate) n [] ((et_as_str (e_type e), e_type e) :: base)) as (ev & p' & pend' & (D1 & D2) & W & F & T); [left; split; [lia|reflexivity]|].
      exists (WStart (et_as_str (e_type e)) a :: after_start (e_type e) ++ ev), p', (pend' ++ [(et_as_str (e_type e), e_type e)]).
      split; [split; [lia|]; rewrite app_length; cbn [length]; lia|]. split.
      { cbn [app close_all flat_map] in W. pose proof (writes_trans _ _ _ _ _ _ _ _ _ _ WS W) as Q. cbn [app] in Q. rewrite <- app_assoc in Q. cbn [app] in Q. rewrite <- app_assoc. exact Q. }
      split.
      * unfold close_all. rewrite flat_map_app. cbn [flat_map fst snd app]. rewrite app_nil_r. fold (close_all pend').
        replace ((after_start (e_type e) ++ ev) ++ close_all pend' ++ WEnd (et_as_str (e_type e)) :: after_end false (e_type e))
          with (after_start (e_type e) ++ (ev ++ close_all pend') ++ WEnd (et_as_str (e_type e)) :: after_end false (e_type e)) by (rewrite <- !app_assoc; reflexivity).
        apply xml_full; try assumption. rewrite ED. exact F.
      * unfold close_last. rewrite map_app. cbn [map fst app]. fold (close_last pend').
        replace ((after_start (e_type e) ++ ev) ++ close_last pend' ++ [WEnd (et_as_str (e_type e))])
          with (after_start (e_type e) ++ (ev ++ close_last pend') ++ WEnd (et_as_str (e_type e)) :: after_end true (e_type e)) by (rewrite <- !app_assoc; reflexivity).
        apply xml_full; try assumption. rewrite ED. exact T.
  - intros n k t i x rest l NE W IH2 NA NR. split; [|discriminate]. destruct (IH2 NA (fun y I => NR y (or_intror I))) as (IH & EN).
    change (mkItem x k i n :: l) with ([mkItem x k i n] ++ l). apply content_step; [|exact IH|exact EN]. intros p pend base RD.
    destruct (writes_leaf n x p pend base k i RD (NE I)) as (lx & LX & W1); [intros c E; apply (NR c); left; exact E|].
    exists lx, n, []. split; [split; cbn; lia|]. split; [exact W1|]. cbn [close_all close_last flat_map map]. rewrite app_nil_r. split; apply LX.
Qed.
Lemma root_renders root e par w : walk d RAlways 1 root w -> (forall j e, get_elementdata d j = Some e -> forall c, ~ In (DAddElement c) (e_data e)) -> get_elementdata d root = Some e ->
  exists l, w_items O d mask 0 [] (mkItem (DElement root) par 0 0 :: w) = Ok l /\ xml_of O d true root l.
Proof.
  intros W NA G. destruct (elem_attrs_shown O d root e R G) as (a & A & TA). destruct (proj1 content_renders _ _ _ W NA e G) as (RC & EN).
  assert (RD : ready 0 0 []) by (right; split; cbn; lia). change (mkItem (DElement root) par 0 0 :: w) with ([mkItem (DElement root) par 0 0] ++ w).
  destruct (e_data e) as [|y data] eqn:ED.
  - rewrite (EN eq_refl). pose proof (writes_empty 0 root e a 0 [] [] par 0 RD G A ED) as Q. cbn [app close_all flat_map] in Q. rewrite (Q []). cbn [w_items map rbind]. rewrite app_nil_r.
    eexists. split; [reflexivity|]. apply xml_empty; assumption.
  - assert (NE : e_data e <> []) by (rewrite ED; discriminate). pose proof (writes_start 0 root e a 0 [] [] par 0 RD G A NE) as Q.
    destruct (RC ltac:(discriminate) 0 [] [(et_as_str (e_type e), e_type e)]) as (ev & p' & pend' & _ & W1 & _ & T); [left; split; [lia|reflexivity]|].
    pose proof (writes_trans _ _ _ _ _ _ _ _ _ _ Q W1) as QQ. specialize (QQ []). cbn [app close_all flat_map] in QQ. rewrite (app_nil_r w) in QQ. cbn [app]. rewrite QQ. cbn [w_items rbind].
    eexists. split; [reflexivity|]. rewrite map_app. cbn [map fst]. fold (close_last pend').
    replace (WStart (et_as_str (e_type e)) a :: (after_start (e_type e) ++ ev) ++ close_last pend' ++ [WEnd (et_as_str (e_type e))])
      with (WStart (et_as_str (e_type e)) a :: after_start (e_type e) ++ (ev ++ close_last pend') ++ WEnd (et_as_str (e_type e)) :: after_end true (e_type e)) by (rewrite <- !app_assoc; reflexivity).
    apply xml_full; try assumption. rewrite ED. exact T.
Qed.
End Loop.
Lemma accepts_all d x : (forall k, item_key x = [k] -> get_elementdata d k <> None) -> (forall c, x <> DAddElement c) -> accepts d sel_all_data x.
Proof.
  intros E NA. exists sel_all_data. split; [left; reflexivity|].
  assert (K : forall k, item_key x = [k] -> accepts_one d sel_all_data (DElement k)).
  { intros k I. specialize (E k I). destruct (get_elementdata d k) as [e|] eqn:G; [|congruence]. split; [right; left; reflexivity|]. exists e. split; [exact G|].
    split; [exact Logic.I|]. split; [exact Logic.I|]. repeat split; left; reflexivity. }
  destruct x as [s|k|s|k|c]; cbn; auto.
  - apply (K k eq_refl).
  - apply (K k eq_refl).
  - destruct (NA c eq_refl).
Qed.
Lemma chosen_all {A} (P : A -> Prop) l m : (forall x, In x l -> P x) -> chosen P l m -> m = l.
Proof.
  intros H C. induction C as [|x l m PX C IH|x l m NX C IH]; [reflexivity| |].
  - f_equal. apply IH. intros y Y. apply H. right. exact Y.
  - destruct NX. apply H. left. reflexivity.
Qed.
Lemma walk_data_in d r : (forall n k w, walk d r n k w -> forall i, In i w -> exists j e, get_elementdata d j = Some e /\ In (si_data i) (e_data e)) /\
  (forall n k t i0 rest w, walk_data d r n k t i0 rest w -> forall i, In i w -> In (si_data i) rest \/ exists j e, get_elementdata d j = Some e /\ In (si_data i) (e_data e)).
Proof.
  apply walk_both.
  - intros n k e l G W IH i I. destruct (IH i I) as [J|J]; [exists k, e; auto|exact J].
  - intros n k t i0 i [].
  - intros n k t i0 c rest below l _ _ IH1 _ IH2 i [<-|I]; [left; left; reflexivity|]. apply in_app_or in I. destruct I as [I|I]; [right; apply IH1, I|]. destruct (IH2 i I); [left; right; assumption|auto].
  - intros n k t i0 x rest l _ _ IH i [<-|I]; [left; left; reflexivity|]. destruct (IH i I); [left; right; assumption|auto].
Qed.
Lemma rbind_mono_fuel {A} (r : res A) : r = OutOfFuel \/ r <> OutOfFuel. Proof. destruct r; auto; right; discriminate. Qed.

(* Every element, except one that was taken out of the tree: the serialiser writes exactly its XML, provided it is
   given time enough. Partial: see the refutation for elements without parent. *)
Theorem C52_xml_is_tree_partial : forall O d root e, tidy d -> get_elementdata d root = Some e -> (e_parent e <> None \/ root = 0) ->
  exists l, xml_of O d true root l /\ (forall fuel, element_xml fuel O d root = OutOfFuel \/ element_xml fuel O d root = Ok l) /\
    exists n, forall fuel, n <= fuel -> element_xml fuel O d root = Ok l.
Proof.
  intros O d root e T G P. pose proof (C18_links_agree_partial d T) as C. assert (A : acyclic d) by (intros k; apply C21_forest_partial, T). pose proof (tidy_reachable _ T) as R.
  assert (HR : get_elementdata d root <> None) by congruence.
  destruct (walk_exists d RAlways C A root HR 1) as (w & W).
  assert (NA : forall j x, get_elementdata d j = Some x -> forall c, ~ In (DAddElement c) (e_data x)).
  { intros j x GJ c I. apply (f_born _ (tidy_forest _ T) j (shape_of x) c); [unfold sh; rewrite GJ; reflexivity|cbn; unfold content; apply filter_In; split; [exact I|reflexivity]]. }
  assert (AC : forall i, In i w -> accepts d sel_all_data (si_data i)).
  { intros i I. destruct (proj1 (walk_data_in d RAlways) _ _ _ W i I) as (j & x & GJ & J). apply accepts_all.
    - intros k K. destruct (si_data i) as [s|c|s|c|c] eqn:SI; try discriminate K; injection K as ->.
      + apply (listed_exists d j k C). unfold children_of. rewrite GJ. apply (child_in d j x k GJ) in J. unfold children_of in J. rewrite GJ in J. exact J.
      + destruct (tidy_spans _ T _ _ GJ) as (_ & S). specialize (S _ J). apply (f_dense _ (tidy_forest _ T)) in S. unfold sh in S. intros Q. rewrite Q in S. apply S. reflexivity.
    - intros c E. rewrite E in J. apply (NA _ _ GJ c J). }
  destruct (C26_select_returns d root sel_all_data RAlways true false T HR) as (n & items & S).
  assert (NH : ~ hopeless_selector sel_all_data) by (intros [Q|[Q|Q]]; discriminate Q).
  destruct (C60_inclusive_partial n d root sel_all_data RAlways false items e C A G P NH (S n (le_n n))) as (f' & l' & S' & I).
  assert (U : usable sel_all_data) by (intros Q; destruct (NH Q)).
  destruct (C24_select_order f' d root sel_all_data RAlways false l' w U S' W) as (m & CH & ->). cbn in CH. apply (chosen_all _ _ _ AC) in CH. subst m.
  destruct I as [(_ & ->)|(NI & _)]; [|destruct NI; apply accepts_all; [intros k K; injection K as ->; exact HR|discriminate]].
  destruct (root_renders O d R root e (match e_parent e with Some p => p | None => root end) w W NA G) as (l & L & X).
  exists l. split; [exact X|].
  assert (ON : forall fuel, n <= fuel -> element_xml fuel O d root = Ok l) by (intros fuel F; unfold element_xml, xml_elements; rewrite (S fuel F); cbn [rbind]; exact L).
  split; [|exists n; exact ON]. intros fuel. destruct (Nat.le_gt_cases n fuel) as [F|F]; [right; apply ON, F|].
  unfold element_xml, xml_elements in *. unfold select_data_by_key in *. set (r := sel_collect fuel d (mkSP sel_all_data RAlways true false) (sel_init root)).
  destruct (rbind_mono_fuel r) as [E|E]; [left; rewrite E; reflexivity|right].
  specialize (ON n (le_n n)). rewrite (collect_mono d _ fuel (sel_init root) E n) in ON by lia. exact ON.
Qed.
Print Assumptions C52_xml_is_tree_partial.
(* so the part of xml() between the metadata and the end is the XML of the body *)
Theorem C52_document_xml_partial : forall fuel O d root e l, tidy d -> get_elementdata d root = Some e -> (e_parent e <> None \/ root = 0) -> doc_xml fuel O d root = Ok l ->
  exists attrs meta body, l = WStart "FoLiA" attrs :: WText nl :: meta ++ body ++ [WText nl; WEnd "FoLiA"] /\ w_metadata fuel d = Ok meta /\ xml_of O d true root body.
Proof.
  intros fuel O d root e l T G P H. unfold doc_xml in H. apply rbind_ok in H. destruct H as (m & M & H). apply rbind_ok in H. destruct H as (b & B & H). injection H as <-.
  destruct (C52_xml_is_tree_partial O d root e T G P) as (l & X & F & _). unfold element_xml in F. destruct (F fuel) as [Q|Q]; rewrite B in Q; [discriminate|]. injection Q as ->.
  eexists _, m, l. split; [reflexivity|]. auto.
Qed.
Print Assumptions C52_document_xml_partial.
(* the description leaves no choice *)
Scheme xml_of_mut := Induction for xml_of Sort Prop with xml_content_mut := Induction for xml_content Sort Prop.
Combined Scheme xml_both from xml_of_mut, xml_content_mut.
Lemma shown_unique O l : forall m m', Forall2 (shown O) l m -> Forall2 (shown O) l m' -> m = m'.
Proof.
  induction l as [|a l IH]; intros m m' F F'; inversion F as [|x p y m0 S1 F1]; inversion F' as [|x' p' y' m0' S2 F2]; subst; [reflexivity|].
  f_equal; [|apply IH; assumption]. destruct p as [n v], p' as [n' v']. destruct S1 as (N1 & V1), S2 as (N2 & V2). cbn in *. congruence.
Qed.
Lemma sole_decidable d k : sole_declaration d k \/ ~ sole_declaration d k.
Proof.
  destruct (get_declaration d k) as [dec|] eqn:G; [|right; intros (dec & Q & _); congruence]. destruct (mask_sole _ _ _ G) as (b & _ & S).
  destruct b; [left; apply S; reflexivity|right; intros Q; apply S in Q; discriminate].
Qed.
Lemma sole_processor_decidable d k p : sole_processor d k p \/ ~ sole_processor d k p.
Proof.
  destruct (get_declaration d k) as [dec|] eqn:G; [|right; intros (dec & Q & _); congruence]. destruct (list_eq_dec Nat.eq_dec (d_processors dec) [p]) as [E|E].
  - left. exists dec. auto.
  - right. intros (dec' & Q & W). congruence.
Qed.
Lemma tag_attributes_unique O d k e l l' : reachable normal d -> get_elementdata d k = Some e -> tag_attributes O d e l -> tag_attributes O d e l' -> l = l'.
Proof.
  intros R G (o & s & b & c & p & -> & F & M) (o' & s' & b' & c' & p' & -> & F' & M'). rewrite (shown_unique _ _ _ _ F F').
  destruct (C15_accessors_return _ _ _ R G) as (_ & (ck & sk & dk & pk & K1 & K2 & K3 & K4) & _).
  rewrite K3 in *. destruct dk as [dk|].
  2:{ destruct M as (-> & -> & -> & ->), M' as (-> & -> & -> & ->). reflexivity. }
  destruct M as (S1 & S2 & SB & SC & P1 & P2), M' as (S1' & S2' & SB' & SC' & P1' & P2').
  assert (ES : s = s').
  { destruct (sole_decidable d dk) as [Q|Q]; [rewrite S1, S1' by (left; exact Q); reflexivity|]. destruct (et_eqb_spec (e_type e) ET_Feature) as [T|T]; [rewrite S1, S1' by (right; exact T); reflexivity|].
    specialize (S2 Q T). specialize (S2' Q T). congruence. }
  assert (EP : p = p').
  { destruct pk as [pk|].
    - destruct (sole_processor_decidable d dk pk) as [Q|Q]; [rewrite (P1 pk K4 Q), (P1' pk K4 Q); reflexivity|].
      assert (N : forall p, r_processor_key e = Ok (Some p) -> ~ sole_processor d dk p) by (intros x X; rewrite K4 in X; injection X as <-; exact Q). specialize (P2 N). specialize (P2' N). congruence.
    - assert (N : forall p, r_processor_key e = Ok (Some p) -> ~ sole_processor d dk p) by (intros x X; rewrite K4 in X; discriminate). specialize (P2 N). specialize (P2' N). congruence. }
  congruence.
Qed.
Theorem C52_xml_unique : forall O d final k l l', reachable normal d -> xml_of O d final k l -> xml_of O d final k l' -> l = l'.
Proof.
  intros O d final k l l' R X. revert l'. revert final k l X. apply (xml_of_mut O d (fun final k l _ => forall l', xml_of O d final k l' -> l = l') (fun final rest l _ => forall l', xml_content O d final rest l' -> l = l')).
  - intros final k e a G D TA l' X. inversion X as [f k0 e0 a0 G0 D0 TA0|f k0 e0 a0 body0 G0 D0 TA0 XC0]; subst; assert (e0 = e) by congruence; subst e0; [|contradiction].
    rewrite (tag_attributes_unique O d k e a a0 R G TA TA0). reflexivity.
  - intros final k e a body G D TA XC IH l' X. inversion X as [f k0 e0 a0 G0 D0 TA0|f k0 e0 a0 body0 G0 D0 TA0 XC0]; subst; assert (e0 = e) by congruence; subst e0; [contradiction|].
    rewrite (tag_attributes_unique O d k e a a0 R G TA TA0), (IH _ XC0). reflexivity.
  - intros final l' X. inversion X; reflexivity.
  - intros final s rest l XC IH l' X. inversion X; subst. f_equal. apply IH. assumption.
  - intros final s rest l XC IH l' X. inversion X; subst. f_equal. apply IH. assumption.
  - intros final s rest l XC IH l' X. inversion X; subst. apply IH. assumption.
  - intros final c rest lc l XO IHO XC IH l' X. inversion X; subst. f_equal; [apply IHO|apply IH]; assumption.
Qed.
Print Assumptions C52_xml_unique.
Example C52_nonvacuous : tidy ex_doc /\ (exists e, get_elementdata ex_doc 0 = Some e) /\ exists l, doc_xml fuel1 ex_oracle ex_doc 0 = Ok l /\ length l = 94.
Proof. split; [exact ex_tidy|]. split; [eexists; vm_compute; reflexivity|]. eexists. split; vm_compute; reflexivity. Qed.
(* A sentence that was taken out of the tree is written under the tag of the body. *)
Theorem C52_xml_is_tree_refuted : exists d d' root e l, tidy d /\ detach_element d root = (d', Ok tt) /\ get_elementdata d' root = Some e /\ e_type e = ET_Sentence /\
  element_xml fuel1 ex_oracle d' root = Ok l /\ (exists a r, l = WStart "text" a :: r) /\ ~ xml_of ex_oracle d' true root l.
Proof.
  exists ex_doc. eexists. exists 10. eexists. eexists. split; [exact ex_tidy|]. split; [vm_compute; reflexivity|]. split; [vm_compute; reflexivity|]. split; [reflexivity|].
  split; [vm_compute; reflexivity|]. split; [eexists _, _; reflexivity|]. intros X. inversion X as [f k e a GE DE TA E1|f k e a body GE DE TA XC E1]; vm_compute in GE; injection GE as <-; discriminate.
Qed.
Print Assumptions C52_xml_is_tree_refuted.
