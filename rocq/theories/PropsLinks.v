(* Properties C18 - C23: the links between parents and children.
   The vocabulary is in Spec.v: parent_of, children_of, content, consistent, ancestor, fresh_for, renders, and the
   documents made with care (tidy). *)
From Coq Require Import String List Bool Arith NArith Lia.
From Verif Require Import Base BaseFacts Types TypesFacts SpecTable Attrib AttribFacts Element Store StoreFacts Metadata Document Select DocOps Xml Parser History Spec FrameFacts InvFacts DocFacts StoreThms EncodeFacts LinkFacts TreeFacts ForestFacts Examples.
Import ListNotations.
Open Scope list_scope.

Lemma consistent_linked d : consistent d <-> linked (sh d).
Proof.
  split.
  - intros C. split.
    + intros p c. rewrite sh_kids, sh_parent. unfold none. destruct (C p) as (N & H). destruct (H c) as (I & _). rewrite (count_nodup _ _ N).
      rewrite Nat.add_0_r. f_equal. destruct (opt_nat_eqb (parent_of d c) (Some p)) eqn:E.
      * apply opt_nat_eqb_eq in E. apply mem_nat_spec. tauto.
      * apply mem_nat_false. intros J. apply I in J. rewrite J in E. cbn in E. rewrite Nat.eqb_refl in E. discriminate.
    + intros p c. rewrite sh_kids. intros I. destruct (C p) as (_ & H). destruct (H c) as (_ & X). specialize (X I). unfold sh. destruct (get_elementdata d c); [discriminate|congruence].
  - intros (A & B) p. split.
    + apply (NoDup_count_occ Nat.eq_dec). intros c. specialize (A p c). rewrite sh_kids in A. rewrite A. unfold none. destruct (opt_nat_eqb _ _); cbn; lia.
    + intros c. specialize (A p c). specialize (B p c). rewrite sh_kids, sh_parent in A. rewrite sh_kids in B. unfold none in A. split.
      * rewrite (count_occ_In Nat.eq_dec). rewrite A. destruct (opt_nat_eqb (parent_of d c) (Some p)) eqn:E; cbn.
        -- apply opt_nat_eqb_eq in E. split; [auto|lia].
        -- split; [lia|]. intros Q. rewrite Q in E. cbn in E. rewrite Nat.eqb_refl in E. discriminate.
      * intros I. specialize (B I). unfold sh in B. destruct (get_elementdata d c); [discriminate|destruct (B eq_refl)].
Qed.

(* ---------------------------------------------------------------- deciding that operations are careful *)
Fixpoint new_elementb (e : elementdata) : bool :=
  match e with
  | mkElem _ _ data _ parent =>
      match parent with Some _ => false | None => true end &&
      (fix go (l : list datatype) : bool :=
         match l with
         | [] => true
         | DAddElement c :: r => new_elementb c && go r
         | DElement _ :: _ | DSpanReference _ :: _ => false
         | _ :: r => go r
         end) data
  end.
Lemma new_elementb_spec e : new_elementb e = true -> new_element e.
Proof.
  induction e as [e IH] using elem_data_ind. destruct e as [t a data k p]. cbn [new_elementb]. intros H. apply andb_true_iff in H. destruct H as (P & H).
  destruct p; [discriminate|]. cbn [e_data] in IH.
  assert (X : (forall k, ~ In (DElement k) data) /\ (forall k, ~ In (DSpanReference k) data) /\ (forall c, In (DAddElement c) data -> new_element c)).
  { clear P. induction data as [|x l IHl]; [split; [|split]; intros ? []|].
    assert (IH' : forall c, In (DAddElement c) l -> new_elementb c = true -> new_element c) by (intros c C; apply IH; right; exact C).
    specialize (IHl IH'). destruct x; try discriminate;
      try (destruct (IHl H) as (A & B & C); split; [|split]; [intros k0 [Q|Q]; [discriminate|eapply A, Q]|intros k0 [Q|Q]; [discriminate|eapply B, Q]|intros c [Q|Q]; [discriminate|apply C, Q]]).
    apply andb_true_iff in H. destruct H as (H1 & H2). destruct (IHl H2) as (A & B & C). split; [|split]; [intros k0 [Q|Q]; [discriminate|eapply A, Q]|intros k0 [Q|Q]; [discriminate|eapply B, Q]|].
    intros c [Q|Q]; [injection Q as ->; apply IH; [left; reflexivity|exact H1]|apply C, Q]. }
  destruct X as (A & B & C). constructor; cbn; auto.
Qed.
Fixpoint nodupb (l : list string) : bool :=
  match l with [] => true | x :: r => negb (existsb (String.eqb x) r) && nodupb r end.
Lemma nodupb_spec l : nodupb l = true -> NoDup l.
Proof.
  induction l as [|x l IH]; cbn; intros H; [constructor|]. apply andb_true_iff in H. destruct H as (A & B). constructor; [|apply IH, B].
  intros I. apply negb_true_iff in A. assert (X : existsb (String.eqb x) l = true) by (apply existsb_exists; exists x; rewrite String.eqb_refl; auto). congruence.
Qed.
Definition freshb (d : document) (e : elementdata) : bool :=
  new_elementb e && nodupb (ids_in e) && forallb (fun id => match get_element_key_by_id d id with None => true | Some _ => false end) (ids_in e).
Lemma freshb_spec d e : freshb d e = true -> fresh_for d e.
Proof.
  unfold freshb. intros H. apply andb_true_iff in H. destruct H as (H & C). apply andb_true_iff in H. destruct H as (A & B).
  split; [apply new_elementb_spec, A|]. split; [apply nodupb_spec, B|]. intros id I. rewrite forallb_forall in C. specialize (C id I). destruct (get_element_key_by_id d id); [discriminate|reflexivity].
Qed.
Definition carefulb (d : document) (o : op) : bool :=
  match o with
  | OAddElement e | OStoreAdd e _ => freshb d e && negb (existsb is_add (e_data e))
  | OAddElementTo p e => match get_elementdata d p with Some _ => freshb d e | None => false end
  | OAnnotate _ e | OAnnotateSpan e => freshb d e
  | OAttach _ _ => false
  | _ => true
  end.
Lemma carefulb_spec d o : carefulb d o = true -> careful d o.
Proof.
  assert (N : forall e, negb (existsb is_add (e_data e)) = true -> no_nested e).
  { intros e H c I. apply negb_true_iff in H. assert (X : existsb is_add (e_data e) = true) by (apply existsb_exists; exists (DAddElement c); auto). congruence. }
  destruct o; cbn; auto using freshb_spec; try discriminate.
  - intros H. apply andb_true_iff in H. destruct H. auto using freshb_spec.
  - destruct (get_elementdata d parent); [|discriminate]. intros H. split; [discriminate|apply freshb_spec, H].
  - intros H. apply andb_true_iff in H. destruct H. auto using freshb_spec.
Qed.
Fixpoint exec_careful (fuel : nat) (d : document) (l : list op) : option document :=
  match l with
  | [] => Some d
  | o :: r => if normal_opb d o && carefulb d o then
                match run_op fuel d o with (d1, Ok _) => exec_careful fuel d1 r | _ => None end
              else None
  end.
Lemma exec_tidy fuel l : forall d d', tidy d -> exec_careful fuel d l = Some d' -> tidy d'.
Proof.
  induction l as [|o l IH]; intros d d' T H; cbn in H; [injection H as <-; exact T|].
  destruct (normal_opb d o && carefulb d o) eqn:B; [|discriminate]. apply andb_true_iff in B. destruct B as (B1 & B2).
  destruct (run_op fuel d o) as [d1 [[]| | |]] eqn:R; try discriminate. eapply IH; [|exact H]. eapply tidy_step; [exact T|].
  split; [apply normal_opb_spec, B1|]. split; [apply carefulb_spec, B2|]. exists fuel, (Ok tt). split; [exact R|]. split; [exact I|auto].
Qed.
Lemma ex_new_tidy : tidy ex_new.
Proof. apply (tidy_new "example"%string ex_props); [apply props_okb_spec; vm_compute; reflexivity|vm_compute; reflexivity]. Qed.
Lemma ex_tidy : tidy ex_doc.
Proof. eapply (exec_tidy fuel1 ex_ops); [exact ex_new_tidy|]. vm_compute. reflexivity. Qed.

(* ================================================================ C18 *)
(* Partial: for documents made with care. Missing: documents changed by operations outside of [careful]; for these
   the property fails, see the refutations below. *)
Theorem C18_links_agree_partial : forall d, tidy d -> consistent d.
Proof. intros d T. apply consistent_linked, f_linked, tidy_forest, T. Qed.
Print Assumptions C18_links_agree_partial.
(* the example document is such a document; its sentence lists three words *)
Example C18_nonvacuous : tidy ex_doc /\ children_of ex_doc 10 = [3; 6; 9; 12] /\ parent_of ex_doc 6 = Some 10.
Proof. split; [exact ex_tidy|]. split; vm_compute; reflexivity. Qed.

(* add_element with a nested element: the child is listed but has no parent *)
Definition ex_nested : elementdata := e_add_element (e_attr ET_Sentence [A_Id "s.2"]) (e_attr ET_Word [A_Id "w.9"]).
Theorem C18_links_agree_refuted : exists fuel d e d1 k, reachable normal d /\ fresh_for d e /\ add_element fuel d e = (d1, Ok k) /\
  exists c, In c (children_of d1 k) /\ parent_of d1 c = None.
Proof.
  exists fuel1, ex_doc, ex_nested. eexists _, 18. split; [exact ex_reachable|]. split; [apply freshb_spec; vm_compute; reflexivity|].
  split; [vm_compute; reflexivity|]. exists 17. split; vm_compute; auto.
Qed.
Print Assumptions C18_links_agree_refuted.
(* add_element_to with an ID that is taken: the child points to the old element, which does not list it *)
Definition ex_dup : elementdata := e_add_element (e_attr ET_Sentence [A_Id "s.1"]) (e_attr ET_Word [A_Id "w.9"]).
Theorem C18_links_agree_duplicate_refuted : exists fuel d e p d1 k, tidy d /\ new_element e /\ add_element_to fuel d p e = (d1, Ok k) /\
  exists c q, parent_of d1 c = Some q /\ ~ In c (children_of d1 q).
Proof.
  exists fuel1, ex_doc, ex_dup, 11. eexists _, 10. split; [exact ex_tidy|]. split; [apply new_elementb_spec; vm_compute; reflexivity|].
  split; [vm_compute; reflexivity|]. exists 17, 10. split; [vm_compute; reflexivity|]. vm_compute. intuition discriminate.
Qed.
Print Assumptions C18_links_agree_duplicate_refuted.
(* a failing add_element_to: a span that refers to an unknown word leaves a stored element whose children lack a parent *)
Theorem C18_links_agree_failure_refuted : exists fuel d e p d1 err, tidy d /\ fresh_for d e /\ add_element_to fuel d p e = (d1, Err err) /\
  exists c q, In c (children_of d1 q) /\ parent_of d1 c <> Some q.
Proof.
  exists fuel1, ex_doc, (ex_span "loc" ["w.77"; "w.1"]), 12. eexists _, _. split; [exact ex_tidy|]. split; [apply freshb_spec; vm_compute; reflexivity|].
  split; [vm_compute; reflexivity|]. exists 18, 19. split; [vm_compute; auto|]. vm_compute. discriminate.
Qed.
Print Assumptions C18_links_agree_failure_refuted.

(* ================================================================ C19 *)
(* everything in a document except its elements, and the IDs of the elements *)
Definition rest_same (d d' : document) : Prop :=
  doc_id d' = doc_id d /\ doc_version d' = doc_version d /\ doc_filename d' = doc_filename d /\ doc_procs d' = doc_procs d /\ doc_chain d' = doc_chain d /\
  doc_decls d' = doc_decls d /\ doc_metadata d' = doc_metadata d /\ doc_submetadata d' = doc_submetadata d /\ doc_active d' = doc_active d /\
  doc_autodeclare d' = doc_autodeclare d /\ forall id, get_element_key_by_id d' id = get_element_key_by_id d id.
Lemma rest_same_trans a b c : rest_same a b -> rest_same b c -> rest_same a c.
Proof.
  unfold rest_same. intros (A1 & A2 & A3 & A4 & A5 & A6 & A7 & A8 & A9 & A10 & A11) (B1 & B2 & B3 & B4 & B5 & B6 & B7 & B8 & B9 & B10 & B11).
  repeat (split; [congruence|]). intros id. rewrite B11. apply A11.
Qed.
Lemma rest_same_refl d : rest_same d d.
Proof. unfold rest_same. repeat (split; [reflexivity|]). reflexivity. Qed.
Lemma upd_rest d k f : rest_same d (upd_element d k f).
Proof.
  unfold rest_same, get_element_key_by_id, st_id_to_key. rewrite upd_index. unfold upd_element. destruct (get_elementdata d k); repeat (split; [reflexivity|]); reflexivity.
Qed.
(* what moving element c to the new parent np does to every element *)
Definition moves (d d' : document) (c : nat) (np : option nat) : Prop :=
  (forall k, get_elementdata d k = None -> get_elementdata d' k = None) /\
  (forall k x, get_elementdata d k = Some x -> exists y, get_elementdata d' k = Some y /\
     e_type y = e_type x /\ e_attribs y = e_attribs x /\ e_key y = e_key x /\
     e_parent y = (if Nat.eqb k c then np else e_parent x) /\
     e_data y = without c (e_data x) ++ (if opt_nat_eqb np (Some k) then [DElement c] else [])) /\
  (* the others are untouched *)
  (forall k, k <> c -> np <> Some k -> parent_of d c <> Some k -> get_elementdata d' k = get_elementdata d k) /\
  rest_same d d'.
Lemma moved_moves d d' c np : linked (sh d) -> (forall k, get_elementdata d' k = option_map (moved c np k) (get_elementdata d k)) -> rest_same d d' -> moves d d' c np.
Proof.
  intros L G R. split; [|split; [|split; [|exact R]]].
  - intros k N. rewrite G, N. reflexivity.
  - intros k x X. rewrite G, X. exists (moved c np k x). split; [reflexivity|]. cbn. repeat (split; [reflexivity|]).
    unfold without, unlist_all. f_equal. apply filter_ext. intros [s|j|e|s|j]; reflexivity.
  - intros k N1 N2 N3. rewrite G. destruct (get_elementdata d k) as [x|] eqn:X; [|reflexivity]. cbn. unfold moved.
    destruct (opt_nat_eqb np (Some k)) eqn:E; [apply opt_nat_eqb_eq in E; contradiction|]. destruct (Nat.eqb_spec k c); [contradiction|].
    rewrite (not_listed d k c x L X N3), app_nil_r. destruct x; reflexivity.
Qed.
Theorem C19_attach_moves_one : forall d p c d' r, consistent d -> attach_element d p c = (d', r) ->
  (r = Ok tt /\ moves d d' c (Some p) /\ parent_of d' c = Some p /\ children_of d' p = remove Nat.eq_dec c (children_of d p) ++ [c]) \/
  ((exists e, r = Err e) /\ d' = d /\ (get_elementdata d p = None \/ get_elementdata d c = None)).
Proof.
  intros d p c d' r C H. pose proof (proj1 (consistent_linked d) C) as L.
  assert (HH := H). unfold attach_element in H.
  destruct (get_elementdata d p) as [pe|] eqn:GP; [|injection H as <- <-; right; eauto].
  destruct (get_elementdata d c) as [ce|] eqn:GC; [|injection H as <- <-; right; eauto]. injection H as H <-. left.
  destruct (attach_get _ _ _ _ L HH) as (_ & _ & G & _ & _). split; [reflexivity|]. split; [|split].
  - apply moved_moves; [exact L|exact G|]. subst d'. destruct (e_parent ce); repeat (eapply rest_same_trans; [|apply upd_rest]); apply rest_same_refl.
  - unfold parent_of. rewrite G, GC. cbn. rewrite Nat.eqb_refl. reflexivity.
  - unfold children_of. rewrite G, GP. cbn. rewrite Nat.eqb_refl, child_keys_app, unlist_kids. reflexivity.
Qed.
Print Assumptions C19_attach_moves_one.
(* the first word of the sentence is attached to its own sentence again: it becomes the last child *)
Example C19_nonvacuous : consistent ex_doc /\ exists d', attach_element ex_doc 10 3 = (d', Ok tt) /\ parent_of ex_doc 3 = Some 10 /\
  children_of ex_doc 10 = [3; 6; 9; 12] /\ children_of d' 10 = [6; 9; 12; 3].
Proof. split; [apply C18_links_agree_partial, ex_tidy|]. eexists. split; [vm_compute; reflexivity|]. repeat split; vm_compute; reflexivity. Qed.

(* ================================================================ C20 *)
Theorem C20_detach_orphans_one : forall d c d' r, consistent d -> detach_element d c = (d', r) ->
  (r = Ok tt /\ moves d d' c None /\ parent_of d' c = None /\ (forall p, children_of d' p = remove Nat.eq_dec c (children_of d p))) \/
  ((exists e, r = Err e) /\ d' = d /\ get_elementdata d c = None).
Proof.
  intros d c d' r C H. pose proof (proj1 (consistent_linked d) C) as L. assert (HH := H). unfold detach_element in H.
  destruct (get_elementdata d c) as [ce|] eqn:GC; [|injection H as <- <-; right; eauto]. injection H as H <-. left.
  destruct (detach_get _ _ _ L HH) as (_ & G & _ & _). split; [reflexivity|]. split; [|split].
  - apply moved_moves; [exact L|exact G|]. subst d'. destruct (e_parent ce); repeat (eapply rest_same_trans; [|apply upd_rest]); apply rest_same_refl.
  - unfold parent_of. rewrite G, GC. cbn. rewrite Nat.eqb_refl. reflexivity.
  - intros p. unfold children_of. rewrite G. destruct (get_elementdata d p); [|reflexivity]. cbn. rewrite app_nil_r, unlist_kids. reflexivity.
Qed.
Print Assumptions C20_detach_orphans_one.
Example C20_nonvacuous : consistent ex_doc /\ exists d', detach_element ex_doc 6 = (d', Ok tt) /\
  children_of ex_doc 10 = [3; 6; 9; 12] /\ children_of d' 10 = [3; 9; 12] /\ children_of d' 6 = children_of ex_doc 6.
Proof. split; [apply C18_links_agree_partial, ex_tidy|]. eexists. split; [vm_compute; reflexivity|]. repeat split; vm_compute; reflexivity. Qed.

(* ================================================================ C21 *)
(* Partial: for documents made with care. Missing: documents in which attach_element was called with an element and
   one of its own descendants, or in which IDs were used twice; see the refutation. *)
Theorem C21_forest_partial : forall d, tidy d -> forall k,
  ~ ancestor d k k /\ exists r, (r = k \/ ancestor d r k) /\ parent_of d r = None.
Proof.
  intros d T k. pose proof (f_acyc _ (tidy_forest _ T)) as A. split.
  - (* walking down from an ancestor one step at a time stays below it *)
    assert (D : forall x a, ancestor d a x -> exists p, parent_of d x = Some p /\ (p = a \/ ancestor d a p)).
    { intros x a H. destruct H as [x H|x b H1 H2]; eauto. }
    assert (TR : forall y z x, ancestor d y z -> ancestor d z x -> ancestor d y x).
    { intros y z x H1 H2. induction H2; [eapply anc_up; eassumption|eapply anc_up; eassumption]. }
    induction (A k) as [k _ IH]. intros H. destruct (D _ _ H) as (p & P & [->|Q]).
    + apply (IH k); [rewrite sh_parent; exact P|exact H].
    + apply (IH p); [rewrite sh_parent; exact P|]. eapply TR; [|exact Q]. apply anc_parent, P.
  - induction (A k) as [k _ IH]. destruct (parent_of d k) as [p|] eqn:P; [|eauto].
    destruct (IH p) as (r & R & N); [rewrite sh_parent; exact P|]. exists r. split; [|exact N]. right. destruct R as [->|R]; [apply anc_parent, P|eapply anc_up; eassumption].
Qed.
Print Assumptions C21_forest_partial.
Example C21_nonvacuous : tidy ex_doc /\ ancestor ex_doc 0 5 /\ ancestor ex_doc 10 5.
Proof.
  split; [exact ex_tidy|]. split.
  - eapply anc_up with (b := 6); [vm_compute; reflexivity|]. eapply anc_up with (b := 10); [vm_compute; reflexivity|]. eapply anc_up with (b := 11); [vm_compute; reflexivity|].
    apply anc_parent. vm_compute. reflexivity.
  - eapply anc_up with (b := 6); [vm_compute; reflexivity|]. apply anc_parent. vm_compute. reflexivity.
Qed.
(* the paragraph is attached to its own sentence *)
Theorem C21_forest_refuted : exists d p c d', tidy d /\ attach_element d p c = (d', Ok tt) /\ reachable normal d' /\ ancestor d' c c.
Proof.
  exists ex_doc, 10, 11. eexists. split; [exact ex_tidy|]. split; [vm_compute; reflexivity|]. split.
  - eapply (reach_op normal ex_doc fuel1 (OAttach 10 11)); [exact ex_reachable|exact I|vm_compute; reflexivity|exact I].
  - eapply anc_up with (b := 10); [vm_compute; reflexivity|]. apply anc_parent. vm_compute. reflexivity.
Qed.
Print Assumptions C21_forest_refuted.

(* ================================================================ C22 *)
Lemma index_loop_spec k l : forall i, match index_loop (Some k) i l with
  | Ok (Some j) => i <= j /\ nth_error l (j - i) = Some (DElement k)
  | Ok None => ~ In (DElement k) l
  | _ => False end.
Proof.
  induction l as [|x l IH]; intros i; cbn; [auto|].
  assert (N : match index_loop (Some k) (S i) l with
              | Ok (Some j) => i <= j /\ nth_error (x :: l) (j - i) = Some (DElement k)
              | Ok None => x = DElement k \/ ~ In (DElement k) (x :: l) | _ => False end).
  { specialize (IH (S i)). destruct (index_loop (Some k) (S i) l) as [[j|]| | |]; try exact IH.
    - destruct IH as (A & B). split; [lia|]. replace (j - i) with (S (j - S i)) by lia. exact B.
    - destruct x as [s|j|e|s|j]; try (right; intros [Q|Q]; [discriminate|apply IH, Q]). destruct (Nat.eq_dec j k) as [->|NE]; [left; reflexivity|]. right. intros [Q|Q]; [congruence|apply IH, Q]. }
  destruct x as [s|j|e|s|j]; try (destruct (index_loop (Some k) (S i) l) as [[jj|]| | |]; try exact N; destruct N as [N|N]; [discriminate|exact N]).
  destruct (Nat.eqb_spec j k) as [->|NE].
  - rewrite Nat.sub_diag. split; [lia|reflexivity].
  - destruct (index_loop (Some k) (S i) l) as [[jj|]| | |]; try exact N. destruct N as [N|N]; [congruence|exact N].
Qed.
Theorem C22_get_index : forall d k e, reachable anything d -> consistent d -> get_elementdata d k = Some e ->
  match parent_of d k with
  | None => r_get_index d e = Ok None
  | Some p => exists pe i, get_elementdata d p = Some pe /\ r_get_index d e = Ok (Some i) /\ nth_error (e_data pe) i = Some (DElement k) /\
                           forall j, nth_error (e_data pe) j = Some (DElement k) -> j = i
  end.
Proof.
  intros d k e R C G. pose proof (reachable_ok _ _ anything_ok R) as (((_ & K & _) & _) & _). specialize (K k e G).
  assert (P : parent_of d k = e_parent e) by (unfold parent_of; rewrite G; reflexivity). rewrite P. unfold r_get_index, r_get_parent.
  destruct (e_parent e) as [p|] eqn:E; [|reflexivity]. cbn [obind].
  destruct (C p) as (ND & H). destruct (H k) as (HI & _). apply HI in P. unfold children_of in P, ND.
  destruct (get_elementdata d p) as [pe|]; [|destruct P]. exists pe. rewrite K. pose proof (index_loop_spec k (e_data pe) 0) as IL.
  destruct (index_loop (Some k) 0 (e_data pe)) as [[i|]| | |]; try contradiction; [|apply in_child_keys in P; contradiction].
  destruct IL as (_ & N). rewrite Nat.sub_0_r in N. exists i. split; [reflexivity|]. split; [reflexivity|]. split; [exact N|].
  (* the element is listed once *)
  clear - ND N. intros j M. revert i j ND N M. induction (e_data pe) as [|x l IH]; intros i j ND N M; [destruct i; discriminate|].
  assert (X : forall n, nth_error l n = Some (DElement k) -> In k (child_keys l)) by (intros n Q; apply in_child_keys; eapply nth_error_In, Q).
  assert (ND' : NoDup (child_keys l)) by (destruct x; cbn in ND; try exact ND; inversion ND; assumption).
  destruct i, j; cbn in N, M; [reflexivity| | |f_equal; eapply IH; eassumption].
  - injection N as ->. cbn in ND. inversion ND as [|? ? NI _]; subst. destruct (NI (X _ M)).
  - injection M as ->. cbn in ND. inversion ND as [|? ? NI _]; subst. destruct (NI (X _ N)).
Qed.
Print Assumptions C22_get_index.
Example C22_nonvacuous : reachable anything ex_doc /\ consistent ex_doc /\ parent_of ex_doc 9 = Some 10 /\
  option_map (r_get_index ex_doc) (get_elementdata ex_doc 9) = Some (Ok (Some 2)).
Proof. split; [exact ex_reachable_any|]. split; [apply C18_links_agree_partial, ex_tidy|]. split; vm_compute; reflexivity. Qed.

(* ================================================================ C23 *)
(* for every document, also those not made with care *)
Definition count_elements (d : document) : nat := length (st_items (doc_elements d)).
Theorem C23_add_element_to_appends_tree : forall fuel d p e d1 k, get_elementdata d p <> None -> fresh_for d e ->
  add_element_to fuel d p e = (d1, Ok k) ->
  get_elementdata d k = None /\ renders d1 k e /\ parent_of d1 k = Some p /\
  (forall j x, get_elementdata d j = Some x -> exists y, get_elementdata d1 j = Some y /\ e_type y = e_type x /\ e_parent y = e_parent x /\
     content y = content x ++ if Nat.eqb j p then [DElement k] else []) /\
  count_elements d1 = count_elements d + size e.
Proof.
  intros fuel d p e d1 k P F H. apply sh_exists in P. destruct (add_element_to_tree fuel d p e d1 k P F H) as (EK & L & RE & PK & O & _ & _).
  split; [|split; [exact RE|split; [exact PK|split; [|exact L]]]].
  - destruct (get_elementdata d k) as [x|] eqn:G; [|reflexivity]. assert (Q : sh d k = Some (shape_of x)) by (unfold sh; rewrite G; reflexivity). apply sh_lt in Q. lia.
  - intros j x G. assert (Q : sh d j = Some (shape_of x)) by (unfold sh; rewrite G; reflexivity). assert (J := Q). apply sh_lt in J. specialize (O j J). rewrite Q in O.
    unfold sh in O. destruct (get_elementdata d1 j) as [y|]; [|discriminate]. exists y. split; [reflexivity|]. cbn in O. injection O as O. unfold shape_of in O.
    destruct (Nat.eqb j p); cbn in O; injection O as E1 E2 E3; rewrite ?app_nil_r; auto.
Qed.
Print Assumptions C23_add_element_to_appends_tree.
(* a paragraph with a sentence of three words, each with a tag, is added to the body of an empty document *)
Example C23_nonvacuous : get_elementdata ex_new 0 <> None /\ fresh_for ex_new ex_par /\ size ex_par = 11 /\
  exists d1, add_element_to fuel1 ex_new 0 ex_par = (d1, Ok 11) /\ children_of d1 0 = [11] /\ children_of d1 11 = [10] /\ children_of d1 10 = [3; 6; 9].
Proof.
  split; [vm_compute; discriminate|]. split; [apply freshb_spec; vm_compute; reflexivity|]. split; [vm_compute; reflexivity|].
  eexists. split; [vm_compute; reflexivity|]. repeat split; vm_compute; reflexivity.
Qed.
