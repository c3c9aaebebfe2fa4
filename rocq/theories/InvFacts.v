(* Invariants of all reachable documents: the three stores are consistent with their indexes. *)
From Coq Require Import String List Bool Arith NArith Lia.
From Verif Require Import Base BaseFacts Types TypesFacts SpecTable Attrib AttribFacts Element Store StoreFacts Metadata Document Select DocOps Xml Parser History FrameFacts.
Import ListNotations.
Open Scope list_scope.

Lemma add_declaration_fst d x : fst (add_declaration d x) = doc_with_decls d (fst (st_add max_dec d_maybe_id d_assign_key (doc_decls d) x)).
Proof. unfold add_declaration. destruct (st_add _ _ _ _ _); reflexivity. Qed.
Lemma add_declaration_snd d x : snd (add_declaration d x) = snd (st_add max_dec d_maybe_id d_assign_key (doc_decls d) x).
Proof. unfold add_declaration. destruct (st_add _ _ _ _ _); reflexivity. Qed.
Lemma add_provenance_fst d x : fst (add_provenance d x) = doc_with_procs d (fst (st_add max_proc pr_maybe_id pr_assign_key (doc_procs d) x)).
Proof. unfold add_provenance. destruct (st_add _ _ _ _ _); reflexivity. Qed.
Lemma add_provenance_snd d x : snd (add_provenance d x) = snd (st_add max_proc pr_maybe_id pr_assign_key (doc_procs d) x).
Proof. unfold add_provenance. destruct (st_add _ _ _ _ _); reflexivity. Qed.

(* simplify the parts of an updated document *)
Ltac docs := cbn [doc_id doc_version doc_filename doc_elements doc_procs doc_chain doc_decls doc_metadata doc_submetadata
  doc_active doc_autodeclare doc_with_elements doc_with_procs doc_with_chain doc_with_decls doc_with_metadata
  doc_with_submetadata doc_with_active doc_with_id doc_with_version] in *.
Ltac docs_g := cbn [doc_id doc_version doc_filename doc_elements doc_procs doc_chain doc_decls doc_metadata doc_submetadata
  doc_active doc_autodeclare doc_with_elements doc_with_procs doc_with_chain doc_with_decls doc_with_metadata
  doc_with_submetadata doc_with_active doc_with_id doc_with_version].

(* ---------------------------------------------------------------- facts about all items of a store *)
Section All.
Context {T : Type} (maxkey : N) (maybe_id : T -> option string) (assign : nat -> T -> T).
Implicit Types s : store T.
Definition st_all (P : nat -> T -> Prop) s : Prop := forall k x, st_get s k = Some x -> P k x.
Definition st_dense s : Prop := forall k, k < st_len s -> exists x, st_get s k = Some x.
Lemma st_all_empty P : st_all P st_empty.
Proof. intros [|k] x H; discriminate. Qed.
Lemma st_all_add (P : nat -> T -> Prop) s x : st_all P s -> P (st_len s) (assign (st_len s) x) -> st_all P (fst (st_add maxkey maybe_id assign s x)).
Proof.
  intros A B. destruct (add_cases maxkey maybe_id assign s x) as [id k M J|s' K _ E I|_ F]; try exact A.
  intros k y. rewrite (st_get_snoc _ _ _ _ E). destruct (Nat.eqb_spec k (st_len s)) as [->|N]; [|apply A].
  intros H; inversion H; subst. exact B.
Qed.
Lemma st_all_set (P : nat -> T -> Prop) s k x : st_all P s -> P k x -> st_all P (st_set s k x).
Proof.
  intros A B j y. rewrite st_get_set. destruct (Nat.eqb_spec j k) as [->|N]; [|apply A].
  destruct (Nat.ltb k (st_len s)); [|discriminate]. intros H; inversion H; subst. exact B.
Qed.
Lemma st_dense_empty : st_dense (@st_empty T).
Proof. intros k H. cbn in H. lia. Qed.
Lemma st_dense_add s x : st_dense s -> st_dense (fst (st_add maxkey maybe_id assign s x)).
Proof.
  intros D. destruct (add_cases maxkey maybe_id assign s x) as [id k M J|s' K _ E I|_ F]; try exact D.
  intros k L. rewrite (st_get_snoc _ _ _ _ E). destruct (Nat.eqb_spec k (st_len s)) as [->|N]; [eauto|].
  apply D. unfold st_len in *. rewrite E, app_length in L. cbn in L. lia.
Qed.
Lemma st_dense_set s k x : st_dense s -> st_dense (st_set s k x).
Proof.
  intros D j L. rewrite st_set_len in L. rewrite st_get_set. destruct (Nat.eqb_spec j k) as [->|N]; [|apply D, L].
  apply Nat.ltb_lt in L. rewrite L. eauto.
Qed.
Lemma st_wf_dense s : st_wf maybe_id s -> st_dense s.
Proof. intros (D & _). exact D. Qed.
Lemma st_get_none_ge s k : st_dense s -> st_get s k = None -> st_len s <= k.
Proof. intros D H. destruct (Nat.lt_ge_cases k (st_len s)) as [L|G]; [|exact G]. destruct (D _ L) as (x & X). congruence. Qed.
Lemma set_bounded s k x : st_bounded maxkey s -> st_bounded maxkey (st_set s k x).
Proof. unfold st_bounded. rewrite st_set_len. auto. Qed.
End All.

(* ---------------------------------------------------------------- guards *)
Record guards_ok (g : guards) : Prop := {
  go_decl : forall t s a f, g_decl g (d_new t s a f);
  go_empty : forall t, g_elem g t [];
  go_set : forall t s, g_elem g t [A_Set s];
  go_proc : forall p l, parse_processor l = Ok p -> g_proc g p }.

Lemma proc_attr_fresh p k v q : proc_attr p k v = Ok q -> proc_fresh p -> proc_fresh q.
Proof.
  destruct p; unfold proc_attr, proc_fresh. repeat (destruct (String.eqb _ _)); try (intros H; inversion H; auto; fail);
    try discriminate.
  all: destruct (dt_parse_typo v); try discriminate; intros H; inversion H; auto.
Qed.
Lemma parse_processor_fresh l p : parse_processor l = Ok p -> proc_fresh p.
Proof.
  assert (K : forall l q p, parse_proc_attrs q l = Ok p -> proc_fresh q -> proc_fresh p).
  { clear l p. induction l as [|[a|] l IH]; intros q p; cbn; intros H; [congruence| |apply IH, H].
    apply rbind_ok in H. destruct H as (v & _ & H). apply rbind_ok in H. destruct H as (q' & A & H).
    intros F. eapply IH; [exact H|]. eapply proc_attr_fresh; eassumption. }
  intros H. apply K in H; [exact H|]. split; reflexivity.
Qed.
Lemma anything_ok : guards_ok anything.
Proof. split; cbn; auto. Qed.
Lemma normal_ok : guards_ok normal.
Proof.
  split; cbn.
  - intros. repeat split.
  - intros t a [].
  - intros t s a [<-|[]]. reflexivity.
  - intros p l H. eapply parse_processor_fresh, H.
Qed.

(* ---------------------------------------------------------------- the basic invariant *)
(* a layer whose attributes were replaced by a reference to the declaration of its contents *)
Definition relabelled (e : elementdata) : Prop :=
  group_contains EG_Layer (e_type e) = true /\ exists dk, e_attribs e = [A_DeclarationRef dk].
Definition elems_ok (s : store elementdata) : Prop :=
  st_dense s /\ st_all (fun k e => e_key e = Some k) s /\
  (forall id k, smap_get (st_index s) id = Some k -> exists e, st_get s k = Some e /\ (e_maybe_id e = Some id \/ relabelled e)) /\
  (forall k e id, st_get s k = Some e -> e_maybe_id e = Some id -> smap_get (st_index s) id = Some k).

Lemma elems_ok_empty : elems_ok st_empty.
Proof.
  split; [apply st_dense_empty|]. split; [apply st_all_empty|]. split; [intros id k H; discriminate|].
  intros [|k] e id H; discriminate.
Qed.
Lemma elems_ok_add s e : elems_ok s -> elems_ok (fst (st_add max_element e_maybe_id e_assign_key s e)).
Proof.
  intros (D & K & Hi & Hu). split; [apply st_dense_add, D|]. split; [apply st_all_add; [exact K|reflexivity]|].
  destruct (add_cases max_element e_maybe_id e_assign_key s e) as [id j M J|s' N _ E I|_ F]; try (split; assumption).
  assert (G : forall k, st_get s' k = if Nat.eqb k (st_len s) then Some (e_assign_key (st_len s) e) else st_get s k)
    by (intros; apply st_get_snoc; exact E).
  split.
  - intros id k. rewrite I, G. intros X.
    assert (Y : smap_get (st_index s) id = Some k \/ (k = st_len s /\ e_maybe_id e = Some id)).
    { destruct (e_maybe_id e) as [i|]; [|auto]. rewrite smap_get_insert in X.
      destruct (String.eqb_spec id i) as [->|]; [right; split; congruence|auto]. }
    destruct Y as [Y|(-> & M)].
    + destruct (Hi _ _ Y) as (x & Z & W). pose proof (st_get_lt _ _ _ Z).
      destruct (Nat.eqb_spec k (st_len s)); [lia|]. eauto.
    + rewrite Nat.eqb_refl. eexists; split; [reflexivity|]. left. exact M.
  - intros k y id. rewrite G, I. destruct (Nat.eqb_spec k (st_len s)) as [->|NE].
    + intros X Y; inversion X; subst. change (e_maybe_id (e_assign_key (st_len s) e)) with (e_maybe_id e) in Y.
      rewrite Y. apply smap_get_insert_same.
    + intros X Y. pose proof (Hu _ _ _ X Y) as Z. destruct (e_maybe_id e) as [i|] eqn:M; [|exact Z].
      rewrite smap_get_insert. destruct (String.eqb_spec id i) as [->|]; [|exact Z].
      unfold st_get_key in N. rewrite M in N. congruence.
Qed.
(* an update that keeps type, key and attributes, or relabels a layer *)
Lemma elems_ok_set s k e e' : st_get s k = Some e -> e_key e' = e_key e -> e_type e' = e_type e ->
  e_attribs e' = e_attribs e \/ relabelled e' -> elems_ok s -> elems_ok (st_set s k e').
Proof.
  intros G KE TE AE (D & K & Hi & Hu).
  assert (A : forall j, st_get (st_set s k e') j = if Nat.eqb j k then Some e' else st_get s j).
  { intros j. destruct (Nat.eqb_spec j k) as [->|N]; [eapply st_get_set_same; exact G|apply st_get_set_other; exact N]. }
  split; [apply st_dense_set, D|]. split; [apply st_all_set; [exact K|rewrite KE; apply K, G]|]. split.
  - intros id j. cbn [st_index st_set]. intros X. destruct (Hi _ _ X) as (z & Z & W). rewrite A.
    destruct (Nat.eqb_spec j k) as [->|N]; [|eauto]. exists e'. split; [reflexivity|].
    rewrite G in Z. inversion Z; subst z. destruct AE as [AE|R]; [|auto].
    unfold e_maybe_id, e_attrib, relabelled in *. rewrite AE, TE. exact W.
  - intros j z id. rewrite A. cbn [st_index st_set]. destruct (Nat.eqb_spec j k) as [->|N]; [|apply Hu].
    intros X Y; inversion X; subst z. destruct AE as [AE|(_ & dk & R)].
    + apply (Hu _ e); [exact G|]. unfold e_maybe_id, e_attrib in *. rewrite <- AE. exact Y.
    + unfold e_maybe_id, e_attrib in Y. rewrite R in Y. discriminate.
Qed.

Definition doc_ok (d : document) : Prop :=
  (elems_ok (doc_elements d) /\ st_bounded max_element (doc_elements d)) /\
  (st_wf d_maybe_id (doc_decls d) /\ st_bounded max_dec (doc_decls d) /\ st_all (fun k x => d_key x = Some k) (doc_decls d)) /\
  (st_wf pr_maybe_id (doc_procs d) /\ st_bounded max_proc (doc_procs d) /\ st_all (fun k x => pr_key x = Some k) (doc_procs d)).

Lemma doc_ok_empty id ad : doc_ok (doc_empty id ad).
Proof.
  split; [|split]; cbn.
  - split; [apply elems_ok_empty|]. unfold st_bounded, st_len; cbn; lia.
  - split; [apply st_wf_empty|]. split; [unfold st_bounded, st_len; cbn; lia|apply st_all_empty].
  - split; [apply st_wf_empty|]. split; [unfold st_bounded, st_len; cbn; lia|apply st_all_empty].
Qed.

Lemma decl_add_parts add dec x : decl_add add ->
  d_key (fst (add dec x)) = d_key dec /\ d_type (fst (add dec x)) = d_type dec /\ d_set (fst (add dec x)) = d_set dec /\
  d_alias (fst (add dec x)) = d_alias dec /\ d_format (fst (add dec x)) = d_format dec /\
  d_processors (fst (add dec x)) = d_processors dec.
Proof.
  intros []; unfold d_add_class, d_add_subclass, d_add_subset; destruct (sopt_add _ _ _); cbn; repeat split; reflexivity.
Qed.

Lemma prim0_ok g a b : prim0 g a b -> doc_ok a -> doc_ok b.
Proof.
  intros P (HE & HD & HP). destruct P; unfold doc_ok; rewrite ?add_declaration_fst, ?add_provenance_fst; docs_g; try (split; [|split]; assumption);
    (split; [|split]; try assumption);
    destruct HE as (HE & HEB), HD as (HD & HDB & HDK), HP as (HP & HPB & HPK).
  - split; [apply add_wf; [reflexivity|exact HD]|]. split; [apply add_bounded, HDB|]. apply st_all_add; [exact HDK|reflexivity].
  - split; [eapply set_wf; [exact H|reflexivity|exact HD]|]. split; [apply set_bounded, HDB|].
    apply st_all_set; [exact HDK|]. apply (HDK _ _ H).
  - destruct (decl_add_parts add dec x H) as (EK & ET & ES & _).
    split; [eapply set_wf; [exact H0|unfold d_maybe_id; rewrite ET, ES; reflexivity|exact HD]|].
    split; [apply set_bounded, HDB|]. apply st_all_set; [exact HDK|]. rewrite EK. apply (HDK _ _ H0).
  - split; [apply add_wf; [reflexivity|exact HP]|]. split; [apply add_bounded, HPB|]. apply st_all_add; [exact HPK|reflexivity].
  - split; [eapply set_wf; [exact H|reflexivity|exact HP]|]. split; [apply set_bounded, HPB|].
    apply st_all_set; [exact HPK|]. apply (HPK _ _ H).
  - split; [eapply set_wf; [exact H|reflexivity|exact HP]|]. split; [apply set_bounded, HPB|].
    apply st_all_set; [exact HPK|]. apply (HPK _ _ H).
  - rewrite add_provenance_fst in *. docs. tauto.
  - rewrite add_provenance_fst in *. docs. tauto.
  - rewrite add_provenance_fst in *. docs. tauto.
  - split; [eapply elems_ok_set; [exact H| | | |exact HE]; auto|apply set_bounded, HEB].
  - split; [eapply elems_ok_set; [exact H| | | |exact HE]; auto|apply set_bounded, HEB].
  - split; [eapply elems_ok_set; [exact H| | | |exact HE]; auto|apply set_bounded, HEB].
  - split; [eapply elems_ok_set; [exact H| | | |exact HE]; auto|apply set_bounded, HEB].
    right. split; [exact H0|]. eexists; reflexivity.
Qed.
Lemma prims_ok g : (forall t s a f, g_decl g (d_new t s a f)) -> forall a b, prims g a b -> doc_ok a -> doc_ok b.
Proof.
  intros HD. apply prims_inv; [exact HD|apply prim0_ok|].
  intros d e ctx d1 e1 _ _ _ ((HE & HEB) & R). split; [|exact R]. docs. split; [apply elems_ok_add, HE|apply add_bounded, HEB].
Qed.

(* every reachable document comes from an empty one by primitive changes *)
Theorem reachable_prims g d : guards_ok g -> reachable g d -> exists id ad, prims g (doc_empty id ad) d.
Proof.
  intros [G1 G2 G3 G4] H. induction H as [id p d P N|fuel O p l d P L D|d fuel o d' r R IH O E RT].
  - exists id, (dp_autodeclare p). replace d with (fst (doc_new id p)) by (rewrite N; reflexivity). apply doc_new_prims; assumption.
  - eexists _, _. eapply parse_document_prims_aux; try eassumption.
    intros a b Q W.
    assert (K : forall a b, prims g a b -> st_wf pr_maybe_id (doc_procs a) -> st_wf pr_maybe_id (doc_procs b)); [|eapply K; eassumption].
    clear. intros a b Q. induction Q as [|d1 d2 d3 S Q IH]; [auto|]. intros W. apply IH. clear IH Q.
    assert (K0 : forall a b, prim0 g a b -> st_wf pr_maybe_id (doc_procs a) -> st_wf pr_maybe_id (doc_procs b)).
    { clear. intros a b P W. destruct P; rewrite ?add_declaration_fst, ?add_provenance_fst in *; docs; try exact W.
      - apply add_wf; [reflexivity|exact W].
      - eapply set_wf; [exact H|reflexivity|exact W].
      - eapply set_wf; [exact H|reflexivity|exact W]. }
    destruct S as [a b S|d e ctx GE]; [eapply K0; eassumption|].
    rewrite store_add_eq.
    assert (KE : st_wf pr_maybe_id (doc_procs (fst (encode d e ctx)))).
    { pose proof (encode_p0 anything (fun _ _ _ _ => I) d e ctx) as E. revert W E. generalize (fst (encode d e ctx)). clear.
      intros b W E. induction E as [|d1 d2 d3 S E IH]; [exact W|]. apply IH. clear E IH.
      destruct S; rewrite ?add_declaration_fst, ?add_provenance_fst in *; docs; try exact W.
      - apply add_wf; [reflexivity|exact W].
      - eapply set_wf; [exact H|reflexivity|exact W].
      - eapply set_wf; [exact H|reflexivity|exact W]. }
    destruct (encode d e ctx) as [d1 [e1| | |]]; cbn in *; try exact KE.
    destruct (st_add _ _ _ _ _); exact KE.
  - destruct IH as (id & ad & Q). exists id, ad. eapply rtc_trans; [exact Q|].
    replace d' with (fst (run_op fuel d o)) by (rewrite E; reflexivity).
    apply run_op_prims; try assumption.
    apply (prims_ok g G1 _ _ Q (doc_ok_empty _ _)).
Qed.
Theorem reachable_ok g d : guards_ok g -> reachable g d -> doc_ok d.
Proof.
  intros G R. destruct (reachable_prims g d G R) as (id & ad & P).
  eapply prims_ok; [apply (go_decl g G)|exact P|apply doc_ok_empty].
Qed.
(* an operation or a history performed on a reachable document *)
Theorem step_prims g d fuel o : guards_ok g -> reachable g d -> op_ok g d o -> prims g d (fst (run_op fuel d o)).
Proof.
  intros [G1 G2 G3 G4] R O. apply run_op_prims; try assumption. eapply (reachable_ok g); [split; assumption|exact R].
Qed.
Theorem history_prims g d l d' : guards_ok g -> reachable g d -> history g d l d' -> prims g d d' /\ reachable g d'.
Proof.
  intros G R H. induction H as [|d o d1 r l d2 fuel O E RT H IH]; [split; [apply rtc_refl|exact R]|].
  assert (R1 : reachable g d1) by (eapply reach_op; eassumption).
  destruct (IH R1) as (P & R2). split; [|exact R2]. eapply rtc_trans; [|exact P].
  replace d1 with (fst (run_op fuel d o)) by (rewrite E; reflexivity). apply step_prims; assumption.
Qed.
Lemma elem_all_True (P : ElementType -> list Attribute -> Prop) e : (forall t l, P t l) -> elem_all P e.
Proof.
  intros T. induction e as [e IH] using elem_ind. constructor; [apply T|].
  intros c I. rewrite Forall_forall in IH. apply (IH _ I).
Qed.
Lemma proc_all_True (P : processor -> Prop) p : (forall q, P q) -> proc_all P p.
Proof. intros T. induction p as [p IH] using proc_ind. constructor; [apply T|]. rewrite Forall_forall in IH. exact IH. Qed.
Lemma op_ok_anything d o : op_ok anything d o.
Proof.
  destruct o; cbn; auto; try (apply elem_all_True; cbn; auto); try (apply proc_all_True; cbn; auto).
  - intros [].
  - intros pr _. apply proc_all_True; cbn; auto.
Qed.
