(* Lemmas behind the properties of the stores and of declarations (PropsStore.v). *)
From Coq Require Import String List Bool Arith NArith Lia.
From Verif Require Import Base BaseFacts Types TypesFacts SpecTable Attrib AttribFacts Element Store StoreFacts Metadata Document Select DocOps Xml Parser History FrameFacts InvFacts DocFacts.
Import ListNotations.
Open Scope list_scope.

(* ---------------------------------------------------------------- encoding does not touch the elements *)
Lemma assoc_elements d dk pk : doc_elements (assoc_processor d dk pk) = doc_elements d.
Proof. apply assoc_parts. Qed.
Lemma declare_elements d t s a f : doc_elements (fst (declare d t s a f)) = doc_elements d.
Proof.
  unfold declare. destruct (get_declaration_key_by_id d (index_id t s)); [reflexivity|]. cbv zeta.
  match goal with |- context [match ?x with Some _ => _ | None => _ end] => destruct x end.
  - cbn [sbind fst]. destruct (doc_active d); [apply assoc_elements|reflexivity].
  - pose proof (add_declaration_fst d (d_new t s a f)) as A. destruct (add_declaration d (d_new t s a f)) as [d1 [k| | |]]; cbn [sbind fst] in *; subst d1; try reflexivity.
    destruct (doc_active _); [rewrite assoc_elements|]; reflexivity.
Qed.
Lemma intern_elements d dk add r : doc_elements (fst (intern_opt d dk add r)) = doc_elements d.
Proof.
  unfold intern_opt. destruct r as [[x|]| | |]; try reflexivity. destruct (get_declaration d dk); [|reflexivity].
  destruct (add d0 x); reflexivity.
Qed.
Lemma encode_refs_elements d e ctx : doc_elements (fst (encode_refs d e ctx)) = doc_elements d.
Proof.
  unfold encode_refs. destruct (et_annotationtype (e_type e)) as [t|].
  - destruct (unwrap (e_set e)) as [set| | |]; cbn [sbind]; try reflexivity.
    pose proof (declare_elements d t set None None) as D. destruct (declare d t set None None) as [d1 [dk| | |]]; cbn [sbind fst] in *; try exact D.
    pose proof (intern_elements d1 dk d_add_class (e_class e)) as I. destruct (intern_opt d1 dk d_add_class (e_class e)) as [d2 ck]. cbn [fst] in *.
    destruct (get_declaration d2 dk) as [dec|]; [|cbn; congruence]. destruct (d_default_processor dec); [cbn; congruence|].
    destruct (doc_active d2); cbn; congruence.
  - assert (X : forall r, doc_elements (fst (d, r : res encoding)) = doc_elements d) by reflexivity.
    destruct (e_type e); try apply X. destruct ctx as [pk|]; [|apply X].
    destruct (get_elementdata d pk) as [parent|]; cbn [ok_or sbind]; try apply X.
    destruct (et_annotationtype (e_type parent)) as [t|]; cbn [expect sbind]; try apply X.
    destruct (unwrap (e_set e)) as [set| | |]; cbn [sbind]; try apply X.
    pose proof (declare_elements d t set None None) as D. destruct (declare d t set None None) as [d1 [dk| | |]]; cbn [sbind fst] in *; try exact D.
    pose proof (intern_elements d1 dk d_add_subclass (e_class e)) as I. destruct (intern_opt d1 dk d_add_subclass (e_class e)) as [d2 ck]. cbn [fst] in *.
    pose proof (intern_elements d2 dk d_add_subset (e_subset e)) as J. destruct (intern_opt d2 dk d_add_subset (e_subset e)) as [d3 sk]. cbn [fst] in *.
    cbn. congruence.
Qed.
Lemma encode_elements d e ctx : doc_elements (fst (encode d e ctx)) = doc_elements d.
Proof.
  unfold encode. destruct (negb (e_encodable e)); [reflexivity|].
  pose proof (encode_refs_elements d e ctx) as R. destruct (encode_refs d e ctx) as [d1 [n| | |]]; cbn [sbind fst] in *; try exact R.
  unfold encode_assoc. generalize (encode_explicit d1 e n). intros n'. destruct (en_test n'); [|exact R]. destruct (en_dec n'), (en_proc n'); try exact R. rewrite assoc_elements. exact R.
Qed.
(* what encode does to the element value *)
Lemma encode_value d e ctx d1 e1 : encode d e ctx = (d1, Ok e1) ->
  e_type e1 = e_type e /\ e_data e1 = e_data e /\ e_key e1 = e_key e /\ e_parent e1 = e_parent e /\
  exists refs, e_attribs e1 = filter (fun a => negb (a_encodable a)) (e_attribs e) ++ refs /\ forall a, In a refs -> decodable a = true.
Proof.
  unfold encode. destruct (e_encodable e) eqn:E; cbn [negb].
  - intros H. apply sbind_ok in H. destruct H as (d2 & n & _ & H). inversion H; subst; clear H.
    repeat (split; [reflexivity|]). generalize (encode_explicit d2 e n). intros n'. eexists. split; [reflexivity|].
    intros a. rewrite !in_app_iff. unfold opt_attr.
    destruct (en_dec n'), (en_class n'), (en_proc n'), (en_subset n'); cbn; intuition; subst; reflexivity.
  - intros H. inversion H; subst. repeat (split; [reflexivity|]). exists []. rewrite app_nil_r. split; [|intros a []].
    symmetry. unfold e_encodable in E. clear H. induction (e_attribs e1) as [|a l IH]; [reflexivity|]. cbn in *.
    apply orb_false_iff in E. destruct E as (A & B). rewrite A. cbn. rewrite IH by exact B. reflexivity.
Qed.
Lemma maybe_id_attribs e : e_maybe_id e = attribs_id (e_attribs e).
Proof.
  unfold e_maybe_id, e_attrib. induction (e_attribs e) as [|a l IH]; [reflexivity|]. cbn [find_attrib attribs_id].
  destruct a; cbn; try exact IH; reflexivity.
Qed.
Lemma maybe_id_eq e : e_maybe_id e = e_id e.
Proof. apply maybe_id_attribs. Qed.
Lemma attribs_id_app l r : attribs_id (l ++ r) = match attribs_id l with Some x => Some x | None => attribs_id r end.
Proof. induction l as [|a l IH]; [reflexivity|]. destruct a; cbn; auto. Qed.
Lemma attribs_id_filter l : attribs_id (filter (fun a => negb (a_encodable a)) l) = attribs_id l.
Proof. induction l as [|a l IH]; [reflexivity|]. destruct a; cbn; auto. Qed.
Lemma attribs_id_refs l : (forall a, In a l -> decodable a = true) -> attribs_id l = None.
Proof.
  induction l as [|a l IH]; [reflexivity|]. intros H. assert (D := H a (or_introl eq_refl)).
  destruct a; cbn in D; try discriminate; cbn; apply IH; intros b I; apply H; right; exact I.
Qed.
Lemma encode_id d e ctx d1 e1 : encode d e ctx = (d1, Ok e1) -> e_id e1 = e_id e.
Proof.
  intros H. apply encode_value in H. destruct H as (_ & _ & _ & _ & refs & A & R). unfold e_id. rewrite A, attribs_id_app, attribs_id_filter, (attribs_id_refs _ R).
  destruct (attribs_id (e_attribs e)); reflexivity.
Qed.

(* ---------------------------------------------------------------- Store::add of an element *)
Inductive store_add_case (d : document) (e : elementdata) (ctx : option nat) : document -> res nat -> Prop :=
  | SA_dup d1 e1 id k : encode d e ctx = (d1, Ok e1) -> e_id e = Some id -> get_element_key_by_id d id = Some k ->
      store_add_case d e ctx d1 (Ok k)
  | SA_new d1 e1 s : encode d e ctx = (d1, Ok e1) -> (forall id, e_id e = Some id -> get_element_key_by_id d id = None) ->
      (N.of_nat (st_len (doc_elements d)) <= max_element)%N ->
      st_items s = st_items (doc_elements d) ++ [Some (e_assign_key (st_len (doc_elements d)) e1)] ->
      st_index s = match e_id e with Some id => smap_insert id (st_len (doc_elements d)) (st_index (doc_elements d)) | None => st_index (doc_elements d) end ->
      store_add_case d e ctx (doc_with_elements d1 s) (Ok (st_len (doc_elements d)))
  | SA_full d1 e1 : encode d e ctx = (d1, Ok e1) -> (forall id, e_id e = Some id -> get_element_key_by_id d id = None) ->
      (max_element < N.of_nat (st_len (doc_elements d)))%N -> store_add_case d e ctx d1 (Err EInternal)
  | SA_encode d1 r : encode d e ctx = (d1, r) -> (forall e1, r <> Ok e1) ->
      store_add_case d e ctx d1 (match r with Ok _ => Panic | Err x => Err x | Panic => Panic | OutOfFuel => OutOfFuel end).
Lemma store_add_cases d e ctx : store_add_case d e ctx (fst (store_add d e ctx)) (snd (store_add d e ctx)).
Proof.
  rewrite store_add_eq. destruct (encode d e ctx) as [d1 r] eqn:E. pose proof (encode_elements d e ctx) as EE. rewrite E in EE. cbn [fst] in EE.
  destruct r as [e1|x| |]; cbn [sbind].
  2:{ apply (SA_encode d e ctx d1 (Err x)); [exact E|intros e1 X; discriminate]. }
  2:{ apply (SA_encode d e ctx d1 Panic); [exact E|intros e1 X; discriminate]. }
  2:{ apply (SA_encode d e ctx d1 OutOfFuel); [exact E|intros e1 X; discriminate]. }
  pose proof (encode_id _ _ _ _ _ E) as ID. rewrite EE.
  pose proof (add_cases max_element e_maybe_id e_assign_key (doc_elements d) e1) as C.
  destruct (st_add max_element e_maybe_id e_assign_key (doc_elements d) e1) as [s r]. cbn [fst snd] in *.
  assert (NK : st_get_key e_maybe_id (doc_elements d) e1 = None -> forall id, e_id e = Some id -> get_element_key_by_id d id = None).
  { unfold st_get_key. rewrite maybe_id_eq, ID. intros H id I. rewrite I in H. exact H. }
  inversion C as [id k M J|s' K L IT IX|K L]; subst.
  - rewrite <- EE. rewrite doc_with_elements_id. rewrite maybe_id_eq, ID in M. eapply SA_dup; eassumption.
  - apply (SA_new d e ctx d1 e1 s); auto. rewrite maybe_id_eq, ID in IX. exact IX.
  - rewrite <- EE. rewrite doc_with_elements_id. eapply SA_full; eauto.
Qed.

(* elements without nested new elements *)
Lemma add_children_plain fuel d e : existsb is_add (e_data e) = false -> add_children fuel d e = (d, Ok (e, None)).
Proof. intros H. destruct e as [ty a l k p]; cbn [add_children e_data] in *. rewrite H. reflexivity. Qed.
Lemma add_element_plain fuel d e : existsb is_add (e_data e) = false -> add_element fuel d e = store_add d e None.
Proof. intros H. unfold add_element. rewrite add_children_plain by exact H. cbn [sbind fst snd]. reflexivity. Qed.

(* ---------------------------------------------------------------- additions to the other two stores *)
Inductive add_case {T} (maxkey : N) (s : store T) (id : string) (item : nat -> T) : store T -> res nat -> Prop :=
  | AC_dup k : smap_get (st_index s) id = Some k -> add_case maxkey s id item s (Ok k)
  | AC_new s' : smap_get (st_index s) id = None -> (N.of_nat (st_len s) <= maxkey)%N ->
      (forall j, st_get s' j = if Nat.eqb j (st_len s) then Some (item (st_len s)) else st_get s j) ->
      st_index s' = smap_insert id (st_len s) (st_index s) -> st_len s' = S (st_len s) ->
      add_case maxkey s id item s' (Ok (st_len s))
  | AC_full : smap_get (st_index s) id = None -> (maxkey < N.of_nat (st_len s))%N -> add_case maxkey s id item s (Err EInternal).
Lemma add_case_of {T} mk mi ak (s : store T) x id : mi x = Some id ->
  add_case mk s id (fun k => ak k x) (fst (st_add mk mi ak s x)) (snd (st_add mk mi ak s x)).
Proof.
  intros M. destruct (add_cases mk mi ak s x) as [id' k M' J|s' K L E I|K L].
  - apply AC_dup. congruence.
  - unfold st_get_key in K. rewrite M in *. apply AC_new; auto.
    + intros j. apply st_get_snoc, E.
    + unfold st_len at 1. rewrite E, app_length. cbn. unfold st_len. lia.
  - unfold st_get_key in K. rewrite M in *. apply AC_full; auto.
Qed.
Lemma add_declaration_case d x : exists s, fst (add_declaration d x) = doc_with_decls d s /\
  add_case max_dec (doc_decls d) (index_id (d_type x) (d_set x)) (fun k => d_assign_key k x) s (snd (add_declaration d x)).
Proof. rewrite add_declaration_fst, add_declaration_snd. eexists. split; [reflexivity|]. apply add_case_of. reflexivity. Qed.
Lemma add_provenance_case d x : exists s, fst (add_provenance d x) = doc_with_procs d s /\
  add_case max_proc (doc_procs d) (pr_id x) (fun k => pr_assign_key k x) s (snd (add_provenance d x)).
Proof. rewrite add_provenance_fst, add_provenance_snd. eexists. split; [reflexivity|]. apply add_case_of. reflexivity. Qed.

(* ---------------------------------------------------------------- C01 *)
Lemma new_declaration_kept d x d1 k l d2 : reachable anything d -> get_declaration_key_by_id d (index_id (d_type x) (d_set x)) = None ->
  add_declaration d x = (d1, Ok k) -> history anything d1 l d2 ->
  get_declaration d1 k = Some (d_assign_key k x) /\ exists y, get_declaration d2 k = Some y /\ decl_keeps (d_assign_key k x) y.
Proof.
  intros R N A H. destruct (add_declaration_case d x) as (s & E & C). rewrite A in *. cbn [fst snd] in *. subst d1.
  inversion C as [k' J|s' N' B G IX L|]; subst.
  - unfold get_declaration_key_by_id, st_id_to_key in N. congruence.
  - assert (G1 : get_declaration (doc_with_decls d s) (st_len (doc_decls d)) = Some (d_assign_key (st_len (doc_decls d)) x)).
    { unfold get_declaration. docs_g. rewrite G, Nat.eqb_refl. reflexivity. }
    split; [exact G1|].
    assert (R1 : reachable anything (doc_with_decls d s)).
    { eapply (reach_op anything d 0 (OAddDeclaration x) _ (Ok tt)); [exact R|exact I| |exact I]. cbn [run_op forget]. rewrite A. reflexivity. }
    apply (history_le _ _ _ _ anything_ok R1) in H. destruct H as [_ (HD & _) _]. apply HD, G1.
Qed.
Lemma new_processor_kept d x d1 k l d2 : reachable anything d -> get_processor_key_by_id d (pr_id x) = None ->
  add_provenance d x = (d1, Ok k) -> history anything d1 l d2 ->
  get_processor d1 k = Some (pr_assign_key k x) /\ exists y, get_processor d2 k = Some y /\ proc_keeps (pr_assign_key k x) y.
Proof.
  intros R N A H. destruct (add_provenance_case d x) as (s & E & C). rewrite A in *. cbn [fst snd] in *. subst d1.
  inversion C as [k' J|s' N' B G IX L|]; subst.
  - unfold get_processor_key_by_id, st_id_to_key in N. congruence.
  - assert (G1 : get_processor (doc_with_procs d s) (st_len (doc_procs d)) = Some (pr_assign_key (st_len (doc_procs d)) x)).
    { unfold get_processor. docs_g. rewrite G, Nat.eqb_refl. reflexivity. }
    split; [exact G1|].
    assert (R1 : reachable anything (doc_with_procs d s)).
    { eapply (reach_op anything d 0 (OAddProvenance x) _ (Ok tt)); [exact R|exact I| |exact I]. cbn [run_op forget]. rewrite A. reflexivity. }
    apply (history_le _ _ _ _ anything_ok R1) in H. destruct H as [_ _ (HD & _)]. apply HD, G1.
Qed.
Lemma new_element_kept d e ctx d1 k l d2 : reachable anything d -> (forall id, e_id e = Some id -> get_element_key_by_id d id = None) ->
  store_add d e ctx = (d1, Ok k) -> history anything d1 l d2 ->
  (exists e1, get_elementdata d1 k = Some e1 /\ e_key e1 = Some k /\ e_type e1 = e_type e /\ e_data e1 = e_data e /\ e_parent e1 = e_parent e /\
    (exists refs, e_attribs e1 = filter (fun a => negb (a_encodable a)) (e_attribs e) ++ refs /\ forall a, In a refs -> decodable a = true) /\
    exists e2, get_elementdata d2 k = Some e2 /\ elem_keeps e1 e2).
Proof.
  intros R N A H. pose proof (store_add_cases d e ctx) as C. rewrite A in C. cbn [fst snd] in C.
  inversion C as [d' e1 id k' E I J|d' e1 s E N' B IT IX|d' e1 E N' B|d' r E NR Q R1]; subst.
  - rewrite (N _ I) in J. discriminate.
  - assert (G1 : get_elementdata (doc_with_elements d' s) (st_len (doc_elements d)) = Some (e_assign_key (st_len (doc_elements d)) e1)).
    { unfold get_elementdata. docs_g. rewrite (st_get_snoc _ _ _ _ IT), Nat.eqb_refl. reflexivity. }
    exists (e_assign_key (st_len (doc_elements d)) e1). split; [exact G1|].
    destruct (encode_value _ _ _ _ _ E) as (T & D & _ & P & AT). cbn. repeat (split; [first [reflexivity|assumption]|]).
    assert (R1 : reachable anything (doc_with_elements d' s)).
    { eapply (reach_op anything d 0 (OStoreAdd e ctx) _ (Ok tt)); [exact R|exact I| |exact I]. cbn [run_op forget]. rewrite A. reflexivity. }
    apply (history_le _ _ _ _ anything_ok R1) in H. destruct H as [(HD & _) _ _]. apply HD, G1.
  - destruct r; discriminate || (exfalso; eapply NR; reflexivity).
Qed.

(* ---------------------------------------------------------------- C02 *)
Lemma dense_lt {T} (s : store T) : st_dense s -> forall j, j < st_len s <-> exists x, st_get s j = Some x.
Proof. intros D j. split; [apply D|]. intros (x & X). eapply st_get_lt, X. Qed.
Lemma decl_dense g d : guards_ok g -> reachable g d -> st_dense (doc_decls d).
Proof. intros G R. destruct (reachable_ok _ _ G R) as (_ & (W & _) & _). eapply st_wf_dense, W. Qed.
Lemma proc_dense g d : guards_ok g -> reachable g d -> st_dense (doc_procs d).
Proof. intros G R. destruct (reachable_ok _ _ G R) as (_ & _ & (W & _)). eapply st_wf_dense, W. Qed.
Lemma elem_dense g d : guards_ok g -> reachable g d -> st_dense (doc_elements d).
Proof. intros G R. destruct (reachable_ok _ _ G R) as (((D & _) & _) & _). exact D. Qed.

Lemma declaration_key_dense d x d1 k : reachable anything d -> add_declaration d x = (d1, Ok k) -> get_declaration d k = None ->
  (forall j, j < k <-> exists y, get_declaration d j = Some y) /\
  (forall j, j <= k <-> exists y, get_declaration d1 j = Some y) /\
  (forall j y, get_declaration d j = Some y -> get_declaration d1 j = Some y).
Proof.
  intros R A N. pose proof (decl_dense _ _ anything_ok R) as D.
  destruct (add_declaration_case d x) as (s & E & C). rewrite A in *. cbn [fst snd] in *. subst d1.
  inversion C as [k' J|s' N' B G IX L|]; subst.
  - exfalso. destruct (reachable_ok _ _ anything_ok R) as (_ & ((_ & Hi & _) & _) & _). destruct (Hi _ _ J) as (y & Y & _).
    unfold get_declaration in N. congruence.
  - split; [apply dense_lt, D|]. unfold get_declaration in *. docs_g. split.
    + intros j. rewrite G. destruct (Nat.eqb_spec j (st_len (doc_decls d))) as [->|NE]; [split; eauto|]. rewrite <- (dense_lt _ D). lia.
    + intros j y Y. rewrite G. pose proof (st_get_lt _ _ _ Y). destruct (Nat.eqb_spec j (st_len (doc_decls d))); [lia|exact Y].
Qed.
Lemma processor_key_dense d x d1 k : reachable anything d -> add_provenance d x = (d1, Ok k) -> get_processor d k = None ->
  (forall j, j < k <-> exists y, get_processor d j = Some y) /\
  (forall j, j <= k <-> exists y, get_processor d1 j = Some y) /\
  (forall j y, get_processor d j = Some y -> get_processor d1 j = Some y).
Proof.
  intros R A N. pose proof (proc_dense _ _ anything_ok R) as D.
  destruct (add_provenance_case d x) as (s & E & C). rewrite A in *. cbn [fst snd] in *. subst d1.
  inversion C as [k' J|s' N' B G IX L|]; subst.
  - exfalso. destruct (reachable_ok _ _ anything_ok R) as (_ & _ & ((_ & Hi & _) & _)). destruct (Hi _ _ J) as (y & Y & _).
    unfold get_processor in N. congruence.
  - split; [apply dense_lt, D|]. unfold get_processor in *. docs_g. split.
    + intros j. rewrite G. destruct (Nat.eqb_spec j (st_len (doc_procs d))) as [->|NE]; [split; eauto|]. rewrite <- (dense_lt _ D). lia.
    + intros j y Y. rewrite G. pose proof (st_get_lt _ _ _ Y). destruct (Nat.eqb_spec j (st_len (doc_procs d))); [lia|exact Y].
Qed.
Lemma element_key_dense d x ctx d1 k : reachable anything d -> store_add d x ctx = (d1, Ok k) -> get_elementdata d k = None ->
  (forall j, j < k <-> exists y, get_elementdata d j = Some y) /\
  (forall j, j <= k <-> exists y, get_elementdata d1 j = Some y) /\
  (forall j y, get_elementdata d j = Some y -> get_elementdata d1 j = Some y).
Proof.
  intros R A N. pose proof (elem_dense _ _ anything_ok R) as D.
  pose proof (store_add_cases d x ctx) as C. rewrite A in C. cbn [fst snd] in C.
  inversion C as [d' e1 id k' E I J|d' e1 s E N' B IT IX|d' e1 E N' B|d' r E NR Q R1]; subst.
  - exfalso. destruct (reachable_ok _ _ anything_ok R) as (((_ & _ & Hi & _) & _) & _). destruct (Hi _ _ J) as (y & Y & _).
    unfold get_elementdata in N. congruence.
  - split; [apply dense_lt, D|]. unfold get_elementdata in *. docs_g.
    assert (G := fun j => st_get_snoc _ _ _ j IT). split.
    + intros j. rewrite G. destruct (Nat.eqb_spec j (st_len (doc_elements d))) as [->|NE]; [split; eauto|]. rewrite <- (dense_lt _ D). lia.
    + intros j y Y. rewrite G. pose proof (st_get_lt _ _ _ Y). destruct (Nat.eqb_spec j (st_len (doc_elements d))); [lia|exact Y].
  - destruct r; discriminate || (exfalso; eapply NR; reflexivity).
Qed.
(* a later addition of a new item gets another key *)
Lemma later_key_differs {T} (R : T -> T -> Prop) (s1 s2 : store T) k1 k2 x : st_keeps R s1 s2 -> st_get s1 k1 = Some x -> st_get s2 k2 = None -> k1 <> k2.
Proof. intros (K & _) G N E. subst k2. destruct (K _ _ G) as (y & Y & _). congruence. Qed.

(* ---------------------------------------------------------------- C03 *)
Lemma get_by_id_declaration d id k : reachable anything d ->
  (get_declaration_key_by_id d id = Some k <-> exists x, get_declaration d k = Some x /\ index_id (d_type x) (d_set x) = id).
Proof.
  intros R. destruct (reachable_ok _ _ anything_ok R) as (_ & ((_ & Hi & Hu) & _) & _). split.
  - intros H. destruct (Hi _ _ H) as (x & X & M). exists x. split; [exact X|]. unfold d_maybe_id in M. congruence.
  - intros (x & X & M). apply (Hu _ _ _ X). unfold d_maybe_id. congruence.
Qed.
Lemma get_by_id_processor d id k : reachable anything d ->
  (get_processor_key_by_id d id = Some k <-> exists x, get_processor d k = Some x /\ pr_id x = id).
Proof.
  intros R. destruct (reachable_ok _ _ anything_ok R) as (_ & _ & ((_ & Hi & Hu) & _)). split.
  - intros H. destruct (Hi _ _ H) as (x & X & M). exists x. split; [exact X|]. unfold pr_maybe_id in M. congruence.
  - intros (x & X & M). apply (Hu _ _ _ X). unfold pr_maybe_id. congruence.
Qed.
Lemma get_by_id_element d id : reachable anything d ->
  get_elementdata_by_id d id <> Panic /\
  (forall k, get_element_key_by_id d id = Some k -> exists e, get_elementdata d k = Some e /\
     (e_id e = Some id \/ group_contains EG_Layer (e_type e) = true /\ exists dk, e_attribs e = [A_DeclarationRef dk])) /\
  (forall k e, get_elementdata d k = Some e -> e_id e = Some id -> get_element_key_by_id d id = Some k).
Proof.
  intros R. destruct (reachable_ok _ _ anything_ok R) as (((_ & _ & Hi & Hu) & _) & _). split; [|split].
  - unfold get_elementdata_by_id, st_get_by_id, st_id_to_key. destruct (smap_get _ id) as [k|] eqn:E; [|discriminate].
    destruct (Hi _ _ E) as (e & X & _). rewrite X. discriminate.
  - intros k K. destruct (Hi _ _ K) as (e & X & M). exists e. split; [exact X|]. rewrite maybe_id_eq in M. exact M.
  - intros k e G M. apply (Hu _ _ _ G). rewrite maybe_id_eq. exact M.
Qed.

(* exact when no layer with an ID is built without a set *)
Definition no_bare_layer_id : guards :=
  mkG (fun t l => group_contains EG_Layer t = true -> attribs_id l <> None -> exists s, In (A_Set s) l) (fun _ => True) (fun _ => True) False.
Lemma no_bare_ok : guards_ok no_bare_layer_id.
Proof. split; cbn; auto. - intros t _ H. congruence. - intros t s _ _. exists s. auto. Qed.
Definition layers_labelled (s : store elementdata) : Prop :=
  st_all (fun _ e => group_contains EG_Layer (e_type e) = true -> e_has_attrib e AB_SET = true \/ e_id e = None) s.
Lemma layer_annotationtype t : group_contains EG_Layer t = true -> exists a, et_annotationtype t = Some a.
Proof.
  intros H.
  assert (K := all_et_forall (fun t => negb (group_contains EG_Layer t) || match et_annotationtype t with Some _ => true | None => false end)
                 ltac:(vm_compute; reflexivity) t).
  cbv beta in K. rewrite H in K. cbn in K. destruct (et_annotationtype t); [eauto|discriminate].
Qed.
Lemma has_attrib_app l r t k d p ty : e_has_attrib (mkElem ty (l ++ r) d k p) t = existsb (fun a => ab_eqb (attribtype a) t) l || existsb (fun a => ab_eqb (attribtype a) t) r.
Proof. unfold e_has_attrib. cbn. apply existsb_app. Qed.
Lemma encode_refs_dec d e ctx d1 n t : et_annotationtype (e_type e) = Some t -> encode_refs d e ctx = (d1, Ok n) -> exists dk, en_dec n = Some dk.
Proof.
  intros T H. unfold encode_refs in H. rewrite T in H.
  apply sbind_ok in H. destruct H as (s1 & set & _ & H). apply sbind_ok in H. destruct H as (s2 & dk & _ & H).
  destruct (intern_opt s2 dk d_add_class (e_class e)) as [d2 ck].
  destruct (get_declaration d2 dk) as [dec|]; [|inversion H; subst; eexists; reflexivity].
  destruct (d_default_processor dec); [inversion H; subst; eexists; reflexivity|]. destruct (doc_active d2); inversion H; subst; eexists; reflexivity.
Qed.
Lemma encode_explicit_dec d e n : en_dec (encode_explicit d e n) = en_dec n.
Proof. unfold encode_explicit. destruct (e_processor e) as [[x|]| | |]; try reflexivity. destruct (get_processor_key_by_id d x); reflexivity. Qed.
Lemma encode_has_set d e ctx d1 e1 t : et_annotationtype (e_type e) = Some t -> e_encodable e = true -> encode d e ctx = (d1, Ok e1) ->
  e_has_attrib e1 AB_SET = true.
Proof.
  intros T E H. unfold encode in H. rewrite E in H. cbn [negb] in H. apply sbind_ok in H. destruct H as (d2 & n & R & H).
  destruct (encode_refs_dec _ _ _ _ _ _ T R) as (dk & D). inversion H; subst; clear H.
  unfold e_has_attrib. cbn. unfold encoded_attribs. rewrite encode_explicit_dec, D. rewrite !existsb_app. cbn. apply orb_true_r.
Qed.
Lemma no_bare_labelled a b : prims no_bare_layer_id a b -> layers_labelled (doc_elements a) -> layers_labelled (doc_elements b).
Proof.
  intros P. induction P as [|d1 d2 d3 S P IH]; [auto|]. intros H. apply IH. clear IH P.
  destruct S as [x y S|d e ctx GE].
  - destruct S; rewrite ?add_declaration_fst, ?add_provenance_fst in *; docs; try exact H; apply st_all_set; try exact H; try (exact (H _ _ H0)).
    cbn. intros _. left. reflexivity.
  - pose proof (store_add_cases d e ctx) as C. pose proof (encode_elements d e ctx) as EE.
    inversion C as [d' e1 id k' E I J|d' e1 s E N' B IT IX|d' e1 E N' B|d' r E NR Q R1]; subst; rewrite E in EE; cbn [fst] in EE; try (rewrite EE; exact H).
    docs_g. intros k x. rewrite (st_get_snoc _ _ _ _ IT). destruct (Nat.eqb_spec k (st_len (doc_elements d))) as [->|NE]; [|apply H].
    intros X; inversion X; subst; clear X. destruct (encode_value _ _ _ _ _ E) as (T & _). pose proof (encode_id _ _ _ _ _ E) as ID.
    change (e_has_attrib (e_assign_key (st_len (doc_elements d)) e1) AB_SET) with (e_has_attrib e1 AB_SET).
    change (e_id (e_assign_key (st_len (doc_elements d)) e1)) with (e_id e1). cbn [e_type e_assign_key]. rewrite T, ID. intros L.
    cbn in GE. destruct (e_id e) as [id|] eqn:I; [|right; reflexivity]. left.
    destruct (GE L) as (s' & S); [unfold e_id in I; congruence|]. destruct (layer_annotationtype _ L) as (t & TT).
    eapply encode_has_set; [exact TT| |exact E]. unfold e_encodable. apply existsb_exists. exists (A_Set s'). auto.
Qed.
Definition ids_exact (s : store elementdata) : Prop :=
  forall id k, smap_get (st_index s) id = Some k -> exists e, st_get s k = Some e /\ e_id e = Some id.
Lemma get_by_id_element_exact d id k : reachable no_bare_layer_id d ->
  (get_element_key_by_id d id = Some k <-> exists e, get_elementdata d k = Some e /\ e_id e = Some id).
Proof.
  intros R. split.
  2:{ intros (e & G & M). destruct (reachable_ok _ _ no_bare_ok R) as (((_ & _ & _ & Hu) & _) & _). apply (Hu _ _ _ G). rewrite maybe_id_eq. exact M. }
  destruct (reachable_prims _ _ no_bare_ok R) as (i & ad & P). revert id k.
  change (ids_exact (doc_elements d)).
  assert (K : forall a b, prims no_bare_layer_id a b -> layers_labelled (doc_elements a) /\ ids_exact (doc_elements a) -> ids_exact (doc_elements b)).
  2:{ apply (K _ _ P). split; [apply st_all_empty|]. intros id k H. discriminate. }
  clear. intros a b P. induction P as [|d1 d2 d3 S P IH]; [tauto|]. intros (L & H). apply IH. clear IH.
  split; [eapply no_bare_labelled; [apply rtc_one, S|exact L]|]. clear P.
  assert (SET : forall d k e e', get_elementdata d k = Some e -> (e_id e' = e_id e) -> ids_exact (doc_elements d) -> ids_exact (st_set (doc_elements d) k e')).
  { clear. intros d k e e' G E H id j J. destruct (H _ _ J) as (x & X & M). destruct (Nat.eq_dec j k) as [->|N].
    - exists e'. split; [apply (st_get_set_same _ _ _ _ G)|]. unfold get_elementdata in G. congruence.
    - exists x. split; [rewrite st_get_set_other by exact N; exact X|exact M]. }
  destruct S as [x y S|d e ctx GE].
  - destruct S; rewrite ?add_declaration_fst, ?add_provenance_fst in *; docs; try exact H; eapply SET; try eassumption; try reflexivity.
    destruct (L _ _ H0 H1) as [X|X]; [congruence|]. rewrite X. reflexivity.
  - pose proof (store_add_cases d e ctx) as C. pose proof (encode_elements d e ctx) as EE.
    inversion C as [d' e1 id k' E I J|d' e1 s E N' B IT IX|d' e1 E N' B|d' r E NR Q R1]; subst; rewrite E in EE; cbn [fst] in EE; try (rewrite EE; exact H).
    docs_g. intros id k. rewrite IX, (st_get_snoc _ _ _ _ IT). pose proof (encode_id _ _ _ _ _ E) as ID. intros J.
    assert (Y : smap_get (st_index (doc_elements d)) id = Some k \/ (k = st_len (doc_elements d) /\ e_id e = Some id)).
    { destruct (e_id e) as [i|]; [|auto]. rewrite smap_get_insert in J. destruct (String.eqb_spec id i) as [->|]; [right; split; congruence|auto]. }
    destruct Y as [Y|(-> & M)].
    + destruct (H _ _ Y) as (x & X & M). pose proof (st_get_lt _ _ _ X). destruct (Nat.eqb_spec k (st_len (doc_elements d))); [lia|]. eauto.
    + rewrite Nat.eqb_refl. eexists; split; [reflexivity|]. change (e_id (e_assign_key (st_len (doc_elements d)) e1)) with (e_id e1). congruence.
Qed.

(* ---------------------------------------------------------------- C05 *)
Lemma keys_bounded d : reachable anything d ->
  (forall k e, get_elementdata d k = Some e -> (N.of_nat k <= u32_max)%N) /\
  (forall k x, get_declaration d k = Some x -> (N.of_nat k <= u16_max)%N) /\
  (forall k x, get_processor d k = Some x -> (N.of_nat k <= u16_max)%N).
Proof.
  intros R. destruct (reachable_ok _ _ anything_ok R) as ((_ & B1) & (_ & B2 & _) & (_ & B3 & _)).
  unfold st_bounded, max_element, max_dec, max_proc in *.
  split; [|split]; intros k x G; apply st_get_lt in G; lia.
Qed.
Lemma add_declaration_limit d x : get_declaration_key_by_id d (index_id (d_type x) (d_set x)) = None ->
  ((N.of_nat (length (st_items (doc_decls d))) <= 65535)%N -> snd (add_declaration d x) = Ok (length (st_items (doc_decls d)))) /\
  ((65535 < N.of_nat (length (st_items (doc_decls d))))%N -> add_declaration d x = (d, Err EInternal)).
Proof.
  intros N. destruct (add_declaration_case d x) as (s & E & C). destruct (add_declaration d x) as [d1 r]. cbn [fst snd] in *.
  unfold get_declaration_key_by_id, st_id_to_key in N. unfold st_len, max_dec, u16_max in *.
  inversion C as [k' J|s' N' B G IX L|N' B]; subst; try congruence; fold (st_len (doc_decls d)) in *.
  - split; [reflexivity|]. unfold st_len in *. lia.
  - split; [unfold st_len in *; lia|]. intros _. rewrite doc_with_decls_id. reflexivity.
Qed.
Lemma doc_with_procs_id d : doc_with_procs d (doc_procs d) = d.
Proof. destruct d; reflexivity. Qed.
Lemma add_provenance_limit d x : get_processor_key_by_id d (pr_id x) = None ->
  ((N.of_nat (length (st_items (doc_procs d))) <= 65535)%N -> snd (add_provenance d x) = Ok (length (st_items (doc_procs d)))) /\
  ((65535 < N.of_nat (length (st_items (doc_procs d))))%N -> add_provenance d x = (d, Err EInternal)).
Proof.
  intros N. destruct (add_provenance_case d x) as (s & E & C). destruct (add_provenance d x) as [d1 r]. cbn [fst snd] in *.
  unfold get_processor_key_by_id, st_id_to_key in N. unfold st_len, max_proc, u16_max in *.
  inversion C as [k' J|s' N' B G IX L|N' B]; subst; try congruence; fold (st_len (doc_procs d)) in *.
  - split; [reflexivity|]. unfold st_len, max_dec, max_proc, u16_max in *; lia.
  - split; [unfold st_len, max_dec, max_proc, u16_max in *; lia|]. intros _. rewrite doc_with_procs_id. reflexivity.
Qed.
Lemma store_add_limit d e ctx d' e1 : encode d e ctx = (d', Ok e1) -> (forall id, e_id e = Some id -> get_element_key_by_id d id = None) ->
  ((N.of_nat (length (st_items (doc_elements d))) <= 4294967295)%N -> snd (store_add d e ctx) = Ok (length (st_items (doc_elements d)))) /\
  ((4294967295 < N.of_nat (length (st_items (doc_elements d))))%N ->
     snd (store_add d e ctx) = Err EInternal /\ doc_elements (fst (store_add d e ctx)) = doc_elements d).
Proof.
  intros E N. pose proof (store_add_cases d e ctx) as C. pose proof (encode_elements d e ctx) as EE.
  destruct (store_add d e ctx) as [d1 r]. cbn [fst snd] in *. rewrite E in EE. cbn [fst] in EE. unfold max_element, u32_max in C.
  inversion C as [d2 e2 id k' E2 I J|d2 e2 s E2 N' B IT IX|d2 e2 E2 N' B|d2 r' E2 NR Q R1]; subst; rewrite E in E2; inversion E2; subst.
  - rewrite (N _ I) in J. discriminate.
  - fold (st_len (doc_elements d)). split; [reflexivity|]. unfold max_element, u32_max in *; lia.
  - unfold max_element, u32_max in B. fold (st_len (doc_elements d)). split; [lia|]. auto.
  - exfalso. eapply NR. reflexivity.
Qed.
(* the class, subset and subclass vocabularies *)
Lemma sopt_limit mk o x : sopt_key o x = None ->
  let n := length (st_items (match o with Some s => s | None => st_empty end)) in
  ((N.of_nat n <= mk)%N -> snd (sopt_add mk o x) = Ok n) /\
  ((mk < N.of_nat n)%N -> o <> None /\ sopt_add mk o x = (o, Err EInternal)).
Proof.
  intros K n. unfold sopt_add. set (s := match o with Some s => s | None => st_empty end) in *.
  assert (KS : ss_get_key s x = None) by (destruct o; [exact K|reflexivity]). rewrite KS.
  unfold ss_add. unfold ss_get_key in KS. rewrite KS. cbv zeta. change (length (st_items s)) with n. split; intros L.
  - apply N.leb_le in L. rewrite L. reflexivity.
  - destruct o as [s'|]; [|subst n s; cbn in L; lia]. apply N.leb_gt in L. rewrite L. split; [discriminate|reflexivity].
Qed.
