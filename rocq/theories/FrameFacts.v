(* Every operation is a sequence of primitive state changes ([prim]); relations and invariants that hold for
   the primitive changes hold for all operations. *)
From Coq Require Import String List Bool Arith NArith Lia.
From Verif Require Import Base BaseFacts Types TypesFacts SpecTable Attrib Element Store StoreFacts Metadata Document Select DocOps Xml Parser History.
Import ListNotations.
Open Scope list_scope.

(* ---------------------------------------------------------------- sequences of steps *)
Inductive rtc (P : document -> document -> Prop) : document -> document -> Prop :=
  | rtc_refl d : rtc P d d
  | rtc_step d1 d2 d3 : P d1 d2 -> rtc P d2 d3 -> rtc P d1 d3.
Lemma rtc_one (P : document -> document -> Prop) d d' : P d d' -> rtc P d d'.
Proof. intros H. eapply rtc_step; [exact H|apply rtc_refl]. Qed.
Lemma rtc_trans (P : document -> document -> Prop) d1 d2 d3 : rtc P d1 d2 -> rtc P d2 d3 -> rtc P d1 d3.
Proof. intros A B. induction A; [exact B|]. eapply rtc_step; eauto. Qed.
Lemma rtc_mono (P Q : document -> document -> Prop) : (forall a b, P a b -> Q a b) -> forall a b, rtc P a b -> rtc Q a b.
Proof. intros H a b R. induction R; [apply rtc_refl|]. eapply rtc_step; eauto. Qed.
Lemma rtc_bind {A B} (P : document -> document -> Prop) d (r : document * res A) (f : document -> A -> document * res B) :
  rtc P d (fst r) -> (forall s a, r = (s, Ok a) -> rtc P s (fst (f s a))) -> rtc P d (fst (sbind r f)).
Proof.
  intros H K. destruct r as [s [a| | |]]; cbn in *; try exact H.
  eapply rtc_trans; [exact H|]. apply K. reflexivity.
Qed.
Lemma rtc_pure {A B} (P : document -> document -> Prop) d (r : res A) (f : document -> A -> document * res B) :
  (forall a, r = Ok a -> rtc P d (fst (f d a))) -> rtc P d (fst (sbind (d, r) f)).
Proof. intros K. destruct r as [a| | |]; cbn; try apply rtc_refl. apply K. reflexivity. Qed.
Lemma rtc_map_err {A} (P : document -> document -> Prop) d e (r : document * res A) : rtc P d (fst r) -> rtc P d (fst (map_err e r)).
Proof. rewrite map_err_fst. auto. Qed.
Lemma rtc_forget {A} (P : document -> document -> Prop) d (r : document * res A) : rtc P d (fst r) -> rtc P d (fst (forget r)).
Proof. destruct r as [s [a| | |]]; cbn; auto. Qed.

Inductive decl_add : (declaration -> string -> declaration * res nat) -> Prop :=
  | da_class : decl_add d_add_class
  | da_subclass : decl_add d_add_subclass
  | da_subset : decl_add d_add_subset.

(* where the processors listed with a declaration come from *)
Definition proc_source (d : document) (pk : nat) : Prop :=
  doc_active d = Some pk \/ exists id, get_processor_key_by_id d id = Some pk.

Section Frame.
Variable g : guards.

Inductive prim0 : document -> document -> Prop :=
  (* declarations *)
  | P_decl_add d x : g_decl g x -> prim0 d (fst (add_declaration d x))
  | P_decl_proc d dk dec pk : get_declaration d dk = Some dec -> proc_source d pk ->
      prim0 d (doc_with_decls d (st_set (doc_decls d) dk (d_with_processors dec (d_processors dec ++ [pk]))))
  | P_decl_intern d dk dec add x : decl_add add -> get_declaration d dk = Some dec ->
      prim0 d (doc_with_decls d (st_set (doc_decls d) dk (fst (add dec x))))
  (* processors *)
  | P_proc_add d p p0 : g_proc g p0 -> p = p0 \/ p = pr_with_pending [] p0 -> prim0 d (fst (add_provenance d p))
  | P_proc_parent d k p parent : get_processor d k = Some p -> get_processor d parent <> None ->
      prim0 d (doc_with_procs d (st_set (doc_procs d) k (pr_with_parent (Some parent) p)))
  | P_proc_child d k p child : get_processor d k = Some p -> get_processor d child <> None ->
      prim0 d (doc_with_procs d (st_set (doc_procs d) k (pr_with_processors (pr_processors p ++ [child]) p)))
  | P_chain d k p : snd (add_provenance d p) = Ok k ->
      prim0 (fst (add_provenance d p))
        (doc_with_chain (fst (add_provenance d p)) (doc_chain (fst (add_provenance d p)) ++ [k]))
  | P_active d k : (g_strict g -> exists p, get_processor d k = Some p) -> prim0 d (doc_with_active d (Some k))
  (* elements *)
  | P_parent d k e p : get_elementdata d k = Some e ->
      prim0 d (doc_with_elements d (st_set (doc_elements d) k (e_set_parent p e)))
  | P_push d k e x : get_elementdata d k = Some e -> is_add x = false ->
      prim0 d (doc_with_elements d (st_set (doc_elements d) k (e_push e x)))
  | P_unlist d k e i x : get_elementdata d k = Some e -> nth_error (e_data e) i = Some (DElement x) ->
      prim0 d (doc_with_elements d (st_set (doc_elements d) k (e_remove e i)))
  | P_layer d k e dk x kx : get_elementdata d k = Some e -> group_contains EG_Layer (e_type e) = true ->
      e_has_attrib e AB_SET = false -> get_elementdata d kx = Some x -> e_declaration_key x = Ok (Some dk) ->
      et_annotationtype (e_type x) = et_annotationtype (e_type e) ->
      prim0 d (doc_with_elements d (st_set (doc_elements d) k (e_with_attribs e [A_DeclarationRef dk])))
  (* metadata, id, version: only while loading *)
  | P_meta d m : prim0 d (doc_with_metadata d m)
  | P_submeta d m : prim0 d (doc_with_submetadata d m)
  | P_id d x : prim0 d (doc_with_id d x)
  | P_version d x : prim0 d (doc_with_version d x).

Inductive prim : document -> document -> Prop :=
  | P_0 a b : prim0 a b -> prim a b
  | P_store d e ctx : g_elem g (e_type e) (e_attribs e) -> prim d (fst (store_add d e ctx)).

Definition prims0 := rtc prim0.
Definition prims := rtc prim.
Lemma lift a b : prims0 a b -> prims a b.
Proof. apply rtc_mono. exact P_0. Qed.

(* ---------------------------------------------------------------- declarations *)
Hypothesis Hdecl : forall t s a f, g_decl g (d_new t s a f).

Lemma doc_with_decls_id d : doc_with_decls d (doc_decls d) = d.
Proof. destruct d; reflexivity. Qed.
Lemma doc_with_elements_id d : doc_with_elements d (doc_elements d) = d.
Proof. destruct d; reflexivity. Qed.
Lemma st_set_id {T} (s : store T) k x : st_get s k = Some x -> st_set s k x = s.
Proof.
  unfold st_get. intros H. destruct (nth_error (st_items s) k) as [o|] eqn:N; [|discriminate].
  destruct s as [it ix]. unfold st_set. cbn in *. subst o. rewrite (set_nth_ext _ _ _ N). reflexivity.
Qed.
Lemma assoc_p0 d dk pk : proc_source d pk -> prims0 d (assoc_processor d dk pk).
Proof.
  intros S. unfold assoc_processor, upd_declaration. destruct (get_declaration d dk) as [dec|] eqn:G; [|apply rtc_refl].
  unfold push_if_absent. destruct (mem_nat pk (d_processors dec)).
  - unfold get_declaration in G. replace (d_with_processors dec (d_processors dec)) with dec by (destruct dec; reflexivity).
    rewrite (st_set_id _ _ _ G), doc_with_decls_id. apply rtc_refl.
  - apply rtc_one, P_decl_proc; assumption.
Qed.
Lemma declare_p0 d t s a f : prims0 d (fst (declare d t s a f)).
Proof.
  unfold declare. destruct (get_declaration_key_by_id d (index_id t s)); [apply rtc_refl|].
  cbv zeta. apply rtc_bind.
  - match goal with |- rtc _ _ (fst (match ?x with _ => _ end)) => destruct x end; [apply rtc_refl|].
    apply rtc_one, P_decl_add, Hdecl.
  - intros d1 k _. cbn. destruct (doc_active d1) eqn:A; [apply assoc_p0; left; exact A|apply rtc_refl].
Qed.
Lemma intern_p0 d dk add r : decl_add add -> prims0 d (fst (intern_opt d dk add r)).
Proof.
  intros A. unfold intern_opt. destruct r as [[x|]| | |]; try apply rtc_refl.
  destruct (get_declaration d dk) as [dec|] eqn:G; [|apply rtc_refl].
  pose proof (P_decl_intern d dk dec add x A G) as P. destruct (add dec x) as [dec' k]. cbn in *. apply rtc_one, P.
Qed.
Lemma doc_add_class_p0 d dk c : prims0 d (fst (doc_add_class d dk c)).
Proof.
  unfold doc_add_class. destruct (get_declaration d dk) as [dec|] eqn:G; [|apply rtc_refl].
  pose proof (P_decl_intern d dk dec _ c da_class G) as P. destruct (d_add_class dec c) as [dec' k]. apply rtc_one, P.
Qed.

(* ---------------------------------------------------------------- encode *)
(* the processor picked is a declaration's only processor, the active one or one with an ID *)
Lemma encode_refs_p0 d e ctx : prims0 d (fst (encode_refs d e ctx)).
Proof.
  unfold encode_refs. destruct (et_annotationtype (e_type e)) as [t|].
  - apply rtc_pure; intros set _. apply rtc_bind; [apply declare_p0|]. intros d1 dk _.
    pose proof (intern_p0 d1 dk d_add_class (e_class e) da_class) as P.
    destruct (intern_opt d1 dk d_add_class (e_class e)) as [d2 ck]. cbn [fst] in P.
    eapply rtc_trans; [exact P|].
    destruct (get_declaration d2 dk) as [dec|]; [|apply rtc_refl].
    destruct (d_default_processor dec); [apply rtc_refl|]. destruct (doc_active d2); apply rtc_refl.
  - assert (D : prims0 d d) by apply rtc_refl.
    destruct (e_type e); try exact D. destruct ctx as [pk|]; [|exact D].
    apply rtc_pure; intros parent _. apply rtc_pure; intros t _. apply rtc_pure; intros set _.
    apply rtc_bind; [apply declare_p0|]. intros d1 dk _.
    pose proof (intern_p0 d1 dk d_add_subclass (e_class e) da_subclass) as P.
    destruct (intern_opt d1 dk d_add_subclass (e_class e)) as [d2 ck]. cbn [fst] in P.
    pose proof (intern_p0 d2 dk d_add_subset (e_subset e) da_subset) as Q.
    destruct (intern_opt d2 dk d_add_subset (e_subset e)) as [d3 sk]. cbn [fst] in *.
    eapply rtc_trans; eassumption.
Qed.
Lemma encode_refs_test d e ctx d1 n : encode_refs d e ctx = (d1, Ok n) -> en_test n = true ->
  exists pk, en_proc n = Some pk /\ doc_active d1 = Some pk.
Proof.
  unfold encode_refs. destruct (et_annotationtype (e_type e)) as [t|].
  - intros H. apply sbind_ok in H. destruct H as (s1 & set & _ & H). apply sbind_ok in H. destruct H as (s2 & dk & _ & H).
    destruct (intern_opt s2 dk d_add_class (e_class e)) as [d2 ck].
    destruct (get_declaration d2 dk) as [dec|]; [|inversion H; subst; discriminate].
    destruct (d_default_processor dec); [inversion H; subst; discriminate|].
    destruct (doc_active d2) eqn:A; inversion H; subst; [|discriminate]. cbn. intros _. eauto.
  - intros H.
    assert (D : (d, Ok (mkEnc None None None None false)) = (d1, Ok n) -> en_test n = true ->
                exists pk, en_proc n = Some pk /\ doc_active d1 = Some pk).
    { intros X; inversion X; subst; discriminate. }
    destruct (e_type e); try exact (D H). destruct ctx as [pk|]; [|discriminate].
    apply sbind_ok in H. destruct H as (s1 & parent & _ & H). apply sbind_ok in H. destruct H as (s2 & t & _ & H).
    apply sbind_ok in H. destruct H as (s3 & set & _ & H). apply sbind_ok in H. destruct H as (s4 & dk & _ & H).
    destruct (intern_opt s4 dk d_add_subclass (e_class e)) as [d2 ck].
    destruct (intern_opt d2 dk d_add_subset (e_subset e)) as [d3 sk].
    inversion H; subst; discriminate.
Qed.
Lemma encode_assoc_p0 d e ctx d1 n : encode_refs d e ctx = (d1, Ok n) -> prims0 d1 (encode_assoc d1 (encode_explicit d1 e n)).
Proof.
  intros R. unfold encode_assoc. destruct (en_test (encode_explicit d1 e n)) eqn:T; [|apply rtc_refl].
  destruct (en_dec (encode_explicit d1 e n)) as [dk|]; [|apply rtc_refl].
  destruct (en_proc (encode_explicit d1 e n)) as [pk|] eqn:P; [|apply rtc_refl].
  apply assoc_p0. unfold encode_explicit in T, P.
  destruct (e_processor e) as [[pid|]| | |];
    try (destruct (encode_refs_test _ _ _ _ _ R T) as (pk' & E & A); rewrite E in P; inversion P; subst; left; exact A).
  destruct (get_processor_key_by_id d1 pid) eqn:K.
  - cbn in P. inversion P; subst. right; eauto.
  - destruct (encode_refs_test _ _ _ _ _ R T) as (pk' & E & A); rewrite E in P; inversion P; subst; left; exact A.
Qed.
Lemma encode_p0 d e ctx : prims0 d (fst (encode d e ctx)).
Proof.
  unfold encode. destruct (negb (e_encodable e)); [apply rtc_refl|].
  apply rtc_bind; [apply encode_refs_p0|]. intros d1 n E. cbn. eapply encode_assoc_p0, E.
Qed.
Lemma store_add_eq d e ctx :
  store_add d e ctx = sbind (encode d e ctx) (fun d1 e1 =>
    let (s, r) := st_add max_element e_maybe_id e_assign_key (doc_elements d1) e1 in (doc_with_elements d1 s, r)).
Proof.
  unfold store_add. destruct (e_encodable e) eqn:E; [reflexivity|].
  unfold encode. rewrite E. reflexivity.
Qed.
Lemma store_add_prims d e ctx : g_elem g (e_type e) (e_attribs e) -> prims d (fst (store_add d e ctx)).
Proof. intros G. apply rtc_one, P_store, G. Qed.

(* ---------------------------------------------------------------- attach, detach *)
Lemma upd_parent_p0 d k p : prims0 d (upd_element d k (e_set_parent p)).
Proof. unfold upd_element. destruct (get_elementdata d k) eqn:G; [|apply rtc_refl]. apply rtc_one, P_parent, G. Qed.
Lemma upd_push_p0 d k x : is_add x = false -> prims0 d (upd_element d k (fun e => e_push e x)).
Proof. intros N. unfold upd_element. destruct (get_elementdata d k) eqn:G; [|apply rtc_refl]. apply rtc_one, P_push; assumption. Qed.
Lemma upd_unlist_p0 d k c : prims0 d (upd_element d k (e_unlist c)).
Proof.
  unfold upd_element. destruct (get_elementdata d k) as [e|] eqn:G; [|apply rtc_refl].
  unfold e_unlist. destruct (e_index e c) as [i|] eqn:I.
  - unfold e_index in I. destruct (position_some _ _ _ I) as (x & N & F & _).
    destruct x; try discriminate. apply rtc_one. eapply P_unlist; eassumption.
  - unfold get_elementdata in G. rewrite (st_set_id _ _ _ G), doc_with_elements_id. apply rtc_refl.
Qed.
Lemma attach_p0 d p c : prims0 d (fst (attach_element d p c)).
Proof.
  unfold attach_element. destruct (get_elementdata d p); [|apply rtc_refl].
  destruct (get_elementdata d c) as [ce|]; [|apply rtc_refl]. cbn.
  eapply rtc_trans; [apply upd_parent_p0|].
  eapply rtc_trans; [apply (upd_push_p0 _ p (DElement c) eq_refl)|].
  destruct (e_parent ce); [apply upd_unlist_p0|apply rtc_refl].
Qed.
Lemma detach_p0 d c : prims0 d (fst (detach_element d c)).
Proof.
  unfold detach_element. destruct (get_elementdata d c) as [ce|]; [|apply rtc_refl]. cbn.
  eapply rtc_trans; [apply upd_parent_p0|]. destruct (e_parent ce); [apply upd_unlist_p0|apply rtc_refl].
Qed.

(* ---------------------------------------------------------------- processors *)
Lemma add_provenance_p0 d p p0 : g_proc g p0 -> p = p0 \/ p = pr_with_pending [] p0 -> prims0 d (fst (add_provenance d p)).
Proof. intros G H. eapply rtc_one, P_proc_add; eassumption. Qed.
Lemma get_upd_processor d k f j : get_processor (upd_processor d k f) j =
  if Nat.eqb j k then option_map f (get_processor d k) else get_processor d j.
Proof.
  unfold upd_processor. destruct (get_processor d k) as [p|] eqn:G.
  - unfold get_processor, doc_with_procs; cbn [doc_procs]. unfold get_processor in G.
    destruct (Nat.eqb_spec j k) as [->|N]; [apply (st_get_set_same _ _ _ _ G)|apply st_get_set_other, N].
  - destruct (Nat.eqb_spec j k) as [->|N]; [exact G|reflexivity].
Qed.
Lemma attach_processor_p0 d p c : prims0 d (fst (attach_processor d p c)).
Proof.
  unfold attach_processor. destruct (get_processor d p) as [pp|] eqn:GP; [|apply rtc_refl].
  destruct (get_processor d c) as [pc|] eqn:GC; [|apply rtc_refl]. cbn [fst].
  set (d1 := upd_processor d c (pr_with_parent (Some p))).
  assert (G1 : forall j, get_processor d j <> None -> get_processor d1 j <> None).
  { intros j J. unfold d1. rewrite get_upd_processor. destruct (Nat.eqb j c); [rewrite GC; discriminate|exact J]. }
  assert (D1 : prims0 d d1).
  { unfold d1, upd_processor. rewrite GC. apply rtc_one. eapply P_proc_parent; [exact GC|congruence]. }
  eapply rtc_trans; [exact D1|]. clearbody d1.
  unfold upd_processor. destruct (get_processor d1 p) as [q|] eqn:H; [|apply rtc_refl].
  apply rtc_one, P_proc_child; [exact H|]. apply G1. congruence.
Qed.
Fixpoint proc_ind (P : processor -> Prop)
    (H : forall p, Forall P (pr_pending p) -> P p) (p : processor) {struct p} : P p :=
  H p (match p as p0 return Forall P (pr_pending p0) with
       | mkProc _ _ _ _ _ _ _ _ _ _ _ _ _ _ _ _ _ _ pending =>
           (fix go (l : list processor) : Forall P l :=
              match l with [] => Forall_nil P | q :: r => Forall_cons q (proc_ind P H q) (go r) end) pending
       end).
Lemma add_subprocessor_eq d parent p :
  add_subprocessor d parent p =
    (let! d1, child := add_provenance d (pr_with_pending [] p) in
     let! d2, _ := attach_processor d1 parent child in
     let! d3, _ := add_subprocessors d2 child (pr_pending p) in
     (d3, Ok child)).
Proof.
  destruct p as [? ? ? ? ? ? ? ? ? ? ? ? ? ? ? ? ? ? pending]. cbn [add_subprocessor pr_pending].
  match goal with |- sbind (add_provenance d ?a) _ = sbind (add_provenance d ?b) _ => change b with a end.
  match goal with |- sbind ?x _ = _ => destruct x as [d1 [child| | |]] end; cbn [sbind]; try reflexivity.
  destruct (attach_processor d1 parent child) as [d2 [u| | |]]; cbn [sbind]; try reflexivity.
  match goal with |- sbind (?f d2 pending) _ = _ =>
    assert (E : forall l d, f d l = add_subprocessors d child l) end.
  { induction l as [|q l IH]; intros dd; [reflexivity|]. cbn [add_subprocessors].
    destruct (add_subprocessor dd child q) as [d' [x| | |]]; cbn [sbind]; try reflexivity. apply IH. }
  rewrite E. reflexivity.
Qed.
Lemma add_subprocessor_p0 p : proc_all (g_proc g) p -> forall d parent, prims0 d (fst (add_subprocessor d parent p)).
Proof.
  induction p as [p IH] using proc_ind. intros G d parent. rewrite add_subprocessor_eq.
  inversion G as [p' GP GS]; subst.
  apply rtc_bind; [eapply add_provenance_p0; [exact GP|auto]|]. intros d1 child _.
  apply rtc_bind; [apply attach_processor_p0|]. intros d2 _ _.
  apply rtc_bind; [|intros; apply rtc_refl].
  clear GP G. revert d2. induction IH as [|q l Hq Hl IHl]; intros d2; cbn; [apply rtc_refl|].
  apply rtc_bind; [apply Hq, GS; left; reflexivity|]. intros d3 _ _. apply IHl. intros c C. apply GS. right; exact C.
Qed.
Lemma add_subprocessors_p0 l : (forall p, In p l -> proc_all (g_proc g) p) ->
  forall d parent, prims0 d (fst (add_subprocessors d parent l)).
Proof.
  induction l as [|q l IHl]; intros G d parent; cbn; [apply rtc_refl|].
  apply rtc_bind; [apply add_subprocessor_p0, G; left; reflexivity|]. intros d3 _ _. apply IHl.
  intros p I. apply G. right; exact I.
Qed.
Lemma add_processor_p0 d p : proc_all (g_proc g) p -> prims0 d (fst (add_processor d p)).
Proof.
  intros G. inversion G as [p' GP GS]; subst.
  unfold add_processor. apply rtc_bind; [eapply add_provenance_p0; [exact GP|auto]|]. intros d1 child E.
  eapply rtc_trans.
  { replace d1 with (fst (add_provenance d (pr_with_pending [] p))) by (rewrite E; reflexivity).
    apply rtc_one, P_chain. rewrite E. reflexivity. }
  rewrite E; cbn [fst].
  apply rtc_bind; [apply add_subprocessors_p0, GS|]. intros; apply rtc_refl.
Qed.

(* ---------------------------------------------------------------- post_add *)
Lemma post_add_wref_p0 fuel d k e st : prims0 d (fst (post_add_wref fuel d k e st)).
Proof.
  unfold post_add_wref. destruct (attribs_last_idref (e_attribs e) None) as [id|]; [|apply rtc_refl].
  apply rtc_pure; intros span _. destruct span as [sk|]; [|apply rtc_refl].
  apply rtc_pure; intros target _. destruct target as [tk|]; [|apply rtc_refl].
  apply (upd_push_p0 _ tk (DSpanReference sk) eq_refl).
Qed.
Lemma sel_find_result fuel d p st f r : sel_find fuel d p st f = Ok (Some r) ->
  exists k e, get_elementdata d k = Some e /\ f k e = Ok (Some r).
Proof.
  revert st; induction fuel as [|fuel IH]; intros st; cbn; [discriminate|].
  destruct (sel_step d p st) as [i st'|st'|st'|]; try discriminate; [|apply IH].
  destruct (si_data i) as [s|k|s|k|x]; try apply IH;
    (destruct (get_elementdata d k) as [e|] eqn:G; [|discriminate]);
    (intros H; apply rbind_ok in H; destruct H as (a & A & B); destruct a as [y|];
      [inversion B; subst; eauto | eapply IH; eauto]).
Qed.
Lemma at_opt_eqb_eq a b : at_opt_eqb a b = true -> a = b.
Proof. destruct a as [x|], b as [y|]; cbn; try congruence. destruct (at_eqb_spec x y); congruence. Qed.
Lemma layer_declaration_result fuel d e dk : layer_declaration fuel d e = Ok (Some dk) ->
  exists k x, get_elementdata d k = Some x /\ e_declaration_key x = Ok (Some dk) /\
    et_annotationtype (e_type x) = et_annotationtype (e_type e).
Proof.
  unfold layer_declaration. intros H. apply rbind_ok in H. destruct H as (s & _ & H).
  apply rbind_ok in H. destruct H as (own & _ & H). apply sel_find_result in H.
  destruct H as (k & x & G & F). exists k, x. split; [exact G|].
  destruct (at_opt_eqb _ _) eqn:A; [|discriminate]. apply unwrap_ok in F. apply at_opt_eqb_eq in A. auto.
Qed.
Lemma post_add_p0 fuel d k st : prims0 d (fst (post_add fuel d k st)).
Proof.
  unfold post_add. destruct (get_elementdata d k) as [e|] eqn:G; [|apply rtc_refl].
  assert (L : prims0 d (fst (if group_contains EG_Layer (e_type e) && negb (e_has_attrib e AB_SET)
             then let! d0, dk := (d, layer_declaration fuel d e) in
                  match dk with
                  | Some dk0 => (upd_element d0 k (fun x => e_with_attribs x [A_DeclarationRef dk0]), Ok tt)
                  | None => (d0, Ok tt)
                  end
             else (d, Ok tt)))).
  { destruct (group_contains EG_Layer (e_type e)) eqn:GL; [|apply rtc_refl].
    destruct (e_has_attrib e AB_SET) eqn:HS; cbn [negb andb]; [apply rtc_refl|].
    apply rtc_pure; intros dk LD. destruct dk as [dk|]; [|apply rtc_refl].
    apply layer_declaration_result in LD. destruct LD as (kx & x & GX & DX & TX).
    cbn. unfold upd_element. rewrite G. apply rtc_one. eapply P_layer; eassumption. }
  destruct (e_type e) eqn:T; try exact L. apply post_add_wref_p0.
Qed.
Lemma link_children_p0 fuel l : forall d p, prims0 d (fst (link_children fuel d p l)).
Proof.
  induction l as [|k l IH]; intros d p; cbn; [apply rtc_refl|].
  eapply rtc_trans; [apply upd_parent_p0|].
  apply rtc_bind; [apply post_add_p0|]. intros d2 _ _. apply IH.
Qed.

(* ---------------------------------------------------------------- add_children *)
(* induction on element values, through the elements still to be added *)
Definition opt_elem (P : elementdata -> Prop) (x : datatype) : Prop :=
  match x with DAddElement c => P c | _ => True end.
Fixpoint elem_ind (P : elementdata -> Prop)
    (H : forall e, Forall (opt_elem P) (e_data e) -> P e) (e : elementdata) {struct e} : P e :=
  H e (match e as e0 return Forall (opt_elem P) (e_data e0) with
       | mkElem _ _ data _ _ =>
           (fix go (l : list datatype) : Forall (opt_elem P) l :=
              match l with
              | [] => Forall_nil _
              | x :: r => Forall_cons x
                            (match x as x0 return opt_elem P x0 with
                             | DAddElement c => elem_ind P H c
                             | _ => I
                             end) (go r)
              end) data
       end).

(* the loop of add_children as a function of its own *)
Fixpoint add_data (fuel : nat) (d : document) (l : list datatype) : document * res (list datatype * list nat) :=
  match l with
  | [] => (d, Ok ([], []))
  | DAddElement c :: r =>
      let! d1, x := add_children fuel d c in
      let! d2, ck := store_add d1 (fst x) None in
      let! d3, _ := link_children fuel d2 ck (opt_list (snd x)) in
      let! d4, y := add_data fuel d3 r in
      (d4, Ok (DElement ck :: fst y, ck :: snd y))
  | DText s :: r => let! d1, y := add_data fuel d r in (d1, Ok (DText s :: fst y, snd y))
  | DElement k :: r => let! d1, y := add_data fuel d r in (d1, Ok (DElement k :: fst y, snd y))
  | DComment s :: r => let! d1, y := add_data fuel d r in (d1, Ok (DComment s :: fst y, snd y))
  | DSpanReference k :: r => let! d1, y := add_data fuel d r in (d1, Ok (DSpanReference k :: fst y, snd y))
  end.
Lemma add_children_eq fuel d e :
  add_children fuel d e =
    if existsb is_add (e_data e) then
      let! d1, x := add_data fuel d (e_data e) in
      (d1, Ok (e_with_data e (fst x), Some (snd x)))
    else (d, Ok (e, None)).
Proof.
  destruct e as [t a data key parent]. cbn [add_children e_data].
  destruct (existsb is_add data); [|reflexivity].
  match goal with |- sbind (?f d data) _ = _ => assert (E : forall l d, f d l = add_data fuel d l) end.
  { induction l as [|x l IH]; intros dd; [reflexivity|].
    destruct x; cbn [add_data]; try (rewrite <- IH; reflexivity).
    destruct (add_children fuel dd e) as [d1 [x| | |]]; cbn [sbind]; try reflexivity.
    destruct (store_add d1 (fst x) None) as [d2 [ck| | |]]; cbn [sbind]; try reflexivity.
    destruct (link_children fuel d2 ck (opt_list (snd x))) as [d3 [u| | |]]; cbn [sbind]; try reflexivity.
    rewrite <- IH. reflexivity. }
  rewrite E. reflexivity.
Qed.
(* only the data of the element itself is rewritten *)
Lemma add_children_shape fuel d e d1 x : add_children fuel d e = (d1, Ok x) -> exists l, fst x = e_with_data e l.
Proof.
  rewrite add_children_eq. destruct (existsb is_add (e_data e)); intros H.
  - apply sbind_ok in H. destruct H as (s & y & _ & H). inversion H; subst. exists (fst y). reflexivity.
  - inversion H; subst. exists (e_data e). destruct e; reflexivity.
Qed.
Lemma shape_guard (P : ElementType -> list Attribute -> Prop) fuel d e d1 x : add_children fuel d e = (d1, Ok x) ->
  P (e_type e) (e_attribs e) -> P (e_type (fst x)) (e_attribs (fst x)).
Proof. intros H. apply add_children_shape in H. destruct H as (l & ->). auto. Qed.

Lemma add_children_prims fuel e : elem_all (g_elem g) e -> forall d, prims d (fst (add_children fuel d e)).
Proof.
  induction e as [e IH] using elem_ind. intros G d. rewrite add_children_eq.
  destruct (existsb is_add (e_data e)); [|apply rtc_refl].
  apply rtc_bind; [|intros; apply rtc_refl].
  inversion G as [e' _ GS]; subst. clear G.
  revert d. induction IH as [|x l Hx Hl IHl]; intros d; cbn; [apply rtc_refl|].
  assert (GS' : forall c, In (DAddElement c) l -> elem_all (g_elem g) c) by (intros c C; apply GS; right; exact C).
  specialize (IHl GS').
  destruct x as [s|k|s|k|c]; cbn in Hx; try (apply rtc_bind; [apply IHl|intros; apply rtc_refl]).
  assert (GC : elem_all (g_elem g) c) by (apply GS; left; reflexivity).
  apply rtc_bind; [apply Hx, GC|]. intros d1 y Y.
  apply rtc_bind; [apply store_add_prims; eapply (shape_guard _ _ _ _ _ _ Y); inversion GC; assumption|]. intros d2 ck _.
  apply rtc_bind; [apply lift, link_children_p0|]. intros d3 _ _.
  apply rtc_bind; [apply IHl|]. intros; apply rtc_refl.
Qed.
Lemma add_element_prims fuel d e : elem_all (g_elem g) e -> prims d (fst (add_element fuel d e)).
Proof.
  intros G. unfold add_element. apply rtc_bind; [apply add_children_prims, G|]. intros d1 x X.
  apply store_add_prims. eapply (shape_guard _ _ _ _ _ _ X). inversion G; assumption.
Qed.
Lemma add_element_to_prims fuel d p e : elem_all (g_elem g) e -> prims d (fst (add_element_to fuel d p e)).
Proof.
  intros G. unfold add_element_to. apply rtc_bind; [apply add_children_prims, G|]. intros d1 x X.
  apply rtc_bind; [apply rtc_map_err, store_add_prims; eapply (shape_guard _ _ _ _ _ _ X); inversion G; assumption|]. intros d2 child _.
  apply rtc_bind; [apply lift, link_children_p0|]. intros d3 _ _.
  apply rtc_bind; [apply lift, attach_p0|]. intros d4 _ _.
  apply rtc_bind; [apply lift, post_add_p0|]. intros; apply rtc_refl.
Qed.

(* ---------------------------------------------------------------- annotate *)
Hypothesis Hempty : forall t, g_elem g t [].
Hypothesis Hset : forall t s, g_elem g t [A_Set s].

Lemma add_checked_prims fuel d p e : elem_all (g_elem g) e -> prims d (fst (add_checked fuel d p e)).
Proof. intros G. unfold add_checked. apply rtc_pure; intros. apply add_element_to_prims, G. Qed.
Lemma add_in_layer_prims fuel d lookup holder t lt set e : elem_all (g_elem g) e ->
  prims d (fst (add_in_layer fuel d lookup holder t lt set e)).
Proof.
  intros G. unfold add_in_layer. apply rtc_pure; intros lk _.
  apply rtc_bind.
  - destruct lk as [k|]; [apply rtc_refl|]. apply rtc_pure; intros. apply add_element_to_prims.
    destruct set; constructor; cbn; try apply Hset; try apply Hempty; intros c [].
  - intros d1 k _. apply rtc_pure; intros. apply add_element_to_prims, G.
Qed.
Lemma annotate_prims fuel d p e : elem_all (g_elem g) e -> prims d (fst (annotate fuel d p e)).
Proof.
  intros G. unfold annotate. destruct (get_elementdata d p) as [pe|]; [|apply rtc_refl].
  destruct (group_contains EG_Span (e_type e)); [|apply add_checked_prims, G].
  apply rtc_pure; intros t _. apply rtc_pure; intros lt _. cbv zeta.
  apply rtc_pure; intros set _.
  destruct (p_wrefable (props (e_type pe))).
  - destruct (get_span_keys d e) as [|k ks]; [apply rtc_refl|].
    apply rtc_pure; intros s _. apply rtc_pure; intros anc _.
    destruct (find (suitable d lt) anc); [apply add_in_layer_prims, G|apply rtc_refl].
  - destruct (negb false && group_contains EG_Structure (e_type pe)); [apply add_in_layer_prims, G|apply add_checked_prims, G].
Qed.
Lemma annotate_span_prims fuel d e : elem_all (g_elem g) e -> prims d (fst (annotate_span fuel d e)).
Proof.
  intros G. unfold annotate_span. destruct (negb _); [apply rtc_refl|].
  destruct (get_span_keys d e); [apply rtc_refl|apply annotate_prims, G].
Qed.

(* ---------------------------------------------------------------- properties *)
Lemma apply_declares_p0 l : forall d, prims0 d (fst (apply_declares d l)).
Proof.
  induction l as [|[t set] l IH]; intros d; cbn; [apply rtc_refl|].
  apply rtc_bind; [apply declare_p0|]. intros d1 dk _.
  apply rtc_bind; [|intros; apply IH].
  destruct set as [s|]; [|apply rtc_refl]. destruct (String.eqb s DEFAULT_TEXT_SET); [|apply rtc_refl].
  apply rtc_bind; [apply doc_add_class_p0|]. intros; apply rtc_refl.
Qed.
End Frame.

(* ---------------------------------------------------------------- induction principles *)
Lemma prims_inv g (I : document -> Prop) :
  (forall t s a f, g_decl g (d_new t s a f)) ->
  (forall a b, prim0 g a b -> I a -> I b) ->
  (forall d e ctx d1 e1, g_elem g (e_type e) (e_attribs e) -> encode d e ctx = (d1, Ok e1) -> I d -> I d1 ->
     I (doc_with_elements d1 (fst (st_add max_element e_maybe_id e_assign_key (doc_elements d1) e1)))) ->
  forall a b, prims g a b -> I a -> I b.
Proof.
  intros HD H0 HS a b H.
  assert (K : forall a b, prims0 g a b -> I a -> I b).
  { intros x y R. induction R; [auto|]. intros i. apply IHR. eapply H0; eauto. }
  induction H as [d|d1 d2 d3 P R IH]; [auto|]. intros i. apply IH.
  destruct P as [x y P|d e ctx G]; [eapply H0; eauto|].
  rewrite store_add_eq. pose proof (encode_p0 g HD d e ctx) as E. apply K in E; [|exact i].
  destruct (encode d e ctx) as [dd [e1| | |]] eqn:EE; cbn [sbind fst] in *; try exact E.
  pose proof (HS d e ctx dd e1 G EE i E) as F.
  destruct (st_add max_element e_maybe_id e_assign_key (doc_elements dd) e1) as [s r]. exact F.
Qed.

(* a preorder preserved by the primitive changes, which may rely on an invariant I *)
Lemma prims_rel g (I : document -> Prop) (R : document -> document -> Prop) :
  (forall t s a f, g_decl g (d_new t s a f)) ->
  (forall d, R d d) -> (forall a b c, R a b -> R b c -> R a c) ->
  (forall a b, prims g a b -> I a -> I b) ->
  (forall a b, prim0 g a b -> I a -> R a b) ->
  (forall d e ctx d1 e1, g_elem g (e_type e) (e_attribs e) -> encode d e ctx = (d1, Ok e1) -> I d -> I d1 -> R d d1 ->
     R d1 (doc_with_elements d1 (fst (st_add max_element e_maybe_id e_assign_key (doc_elements d1) e1)))) ->
  forall a b, prims g a b -> I a -> R a b.
Proof.
  intros HD Hr Ht HI H0 HS a b H.
  assert (K : forall a b, prims0 g a b -> I a -> R a b).
  { intros x y P. induction P as [d|d1 d2 d3 Q P IH]; [auto|]. intros i. eapply Ht; [apply H0; eauto|].
    apply IH. eapply HI; [apply rtc_one, P_0, Q|exact i]. }
  induction H as [d|d1 d2 d3 P Q IH]; [auto|]. intros i.
  assert (i2 : I d2) by (eapply HI; [apply rtc_one, P|exact i]).
  eapply Ht; [|apply IH, i2]. clear IH Q i2.
  destruct P as [x y P|d e ctx G]; [apply H0; eauto|].
  rewrite store_add_eq. pose proof (encode_p0 g HD d e ctx) as E.
  pose proof (HI _ _ (lift _ _ _ E) i) as i1. pose proof (K _ _ E i) as RE.
  destruct (encode d e ctx) as [dd [e1| | |]] eqn:EE; cbn [sbind fst] in *; try exact RE.
  pose proof (HS d e ctx dd e1 G EE i i1 RE) as F.
  destruct (st_add max_element e_maybe_id e_assign_key (doc_elements dd) e1) as [s r].
  eapply Ht; [exact RE|exact F].
Qed.

Section Ops.
Variable g : guards.
Hypothesis Hdecl : forall t s a f, g_decl g (d_new t s a f).
Hypothesis Hempty : forall t, g_elem g t [].
Hypothesis Hset : forall t s, g_elem g t [A_Set s].

(* a processor that was added is there *)
Lemma add_provenance_get d p d1 k : st_wf pr_maybe_id (doc_procs d) -> add_provenance d p = (d1, Ok k) ->
  exists q, get_processor d1 k = Some q.
Proof.
  intros W. unfold add_provenance.
  pose proof (add_cases max_proc pr_maybe_id pr_assign_key (doc_procs d) p) as C.
  destruct (st_add max_proc pr_maybe_id pr_assign_key (doc_procs d) p) as [s r]. cbn [fst snd] in C.
  intros E; inversion E; subst. unfold get_processor, doc_with_procs; cbn [doc_procs].
  inversion C as [id k' M J|s' N B IT IX|]; subst.
  - destruct W as (_ & Hi & _). destruct (Hi _ _ J) as (x & X & _). eauto.
  - rewrite (st_get_snoc _ _ _ _ IT), Nat.eqb_refl. eauto.
Qed.

Lemma prim0_procs_keep a b k p : prim0 g a b -> get_processor a k = Some p -> exists q, get_processor b k = Some q.
Proof.
  intros P G. inversion P; subst; unfold get_processor in *; cbn [doc_procs doc_with_decls doc_with_procs doc_with_chain
     doc_with_active doc_with_elements doc_with_metadata doc_with_submetadata doc_with_id doc_with_version]; eauto.
  - unfold add_declaration. destruct (st_add _ _ _ _ _). cbn. eauto.
  - unfold add_provenance. pose proof (add_keeps max_proc pr_maybe_id pr_assign_key (doc_procs a) p0 k p G) as K.
    destruct (st_add _ _ _ _ _) as [s r]. cbn in *. eauto.
  - rewrite st_get_set. destruct (Nat.eqb_spec k k0) as [->|N]; [|eauto].
    apply st_get_lt in G. apply Nat.ltb_lt in G. rewrite G. eauto.
  - rewrite st_get_set. destruct (Nat.eqb_spec k k0) as [->|N]; [|eauto].
    apply st_get_lt in G. apply Nat.ltb_lt in G. rewrite G. eauto.
Qed.
Lemma prims0_procs_keep a b k p : prims0 g a b -> get_processor a k = Some p -> exists q, get_processor b k = Some q.
Proof.
  intros H. revert p. induction H; intros q G; [eauto|].
  destruct (prim0_procs_keep _ _ _ _ H G) as (r & R). eapply IHrtc, R.
Qed.

Lemma apply_properties_prims d p : props_ok g p -> st_wf pr_maybe_id (doc_procs d) -> prims g d (fst (apply_properties d p)).
Proof.
  intros G W. apply lift. unfold apply_properties. apply rtc_bind; [|intros; apply apply_declares_p0, Hdecl].
  destruct (dp_processor p) as [pr|] eqn:E; [|apply rtc_refl]. specialize (G _ E).
  apply rtc_bind; [apply add_processor_p0, G|]. intros d1 k K. apply rtc_one, P_active. intros _.
  inversion G as [p' GP GS]; subst.
  unfold add_processor in K. apply sbind_ok in K. destruct K as (d2 & c & A & K).
  apply sbind_ok in K. destruct K as (d3 & u & B & K). inversion K; subst.
  destruct (add_provenance_get _ _ _ _ W A) as (q & Q).
  pose proof (add_subprocessors_p0 g _ GS (doc_with_chain d2 (doc_chain d2 ++ [k])) k) as R. rewrite B in R. cbn [fst] in R.
  eapply (prims0_procs_keep _ _ _ q R). exact Q.
Qed.

Theorem run_op_prims fuel d o : op_ok g d o -> st_wf pr_maybe_id (doc_procs d) -> prims g d (fst (run_op fuel d o)).
Proof.
  intros G W. destruct o; cbn [run_op op_ok] in *; try apply rtc_forget.
  - apply add_element_prims, G.
  - apply add_element_to_prims, G.
  - apply store_add_prims, G.
  - apply lift, attach_p0.
  - apply lift, detach_p0.
  - apply annotate_prims; assumption.
  - apply annotate_span_prims; assumption.
  - apply lift, declare_p0, Hdecl.
  - apply lift, rtc_one, P_decl_add, G.
  - apply lift, doc_add_class_p0.
  - apply lift. eapply add_provenance_p0; [exact G|auto].
  - apply lift, add_processor_p0, G.
  - apply lift, add_subprocessor_p0, G.
  - apply lift, attach_processor_p0.
  - apply lift, rtc_one, P_active, G.
  - apply apply_properties_prims; assumption.
Qed.
Lemma doc_new_prims id p : props_ok g p -> prims g (doc_empty id (dp_autodeclare p)) (fst (doc_new id p)).
Proof.
  intros G. unfold doc_new.
  assert (E : encode (doc_empty id (dp_autodeclare p))
     (e_new (match dp_bodytype p with BT_Text => ET_Text | BT_Speech => ET_Speech end)) None =
     (doc_empty id (dp_autodeclare p), Ok (e_new (match dp_bodytype p with BT_Text => ET_Text | BT_Speech => ET_Speech end))))
    by (destruct (dp_bodytype p); reflexivity).
  rewrite E. cbn [sbind].
  apply rtc_bind; [apply store_add_prims; destruct (dp_bodytype p); apply Hempty|].
  intros d2 k K. apply apply_properties_prims; [exact G|].
  replace d2 with (fst (d2, Ok k)) by reflexivity. rewrite <- K.
  destruct (dp_bodytype p); apply st_wf_empty.
Qed.

(* ---------------------------------------------------------------- the parser *)
Hypothesis Hproc : forall p l, parse_processor l = Ok p -> g_proc g p.

Lemma root_attrs_p0 l : forall d d', root_attrs d l = Ok d' -> prims0 g d d'.
Proof.
  induction l as [|[a|] l IH]; intros d d'; cbn; intros H; [inversion H; apply rtc_refl| |discriminate].
  destruct (String.eqb (xa_key a) "xml:id").
  - apply rbind_ok in H. destruct H as (v & _ & H). eapply rtc_step; [apply P_id|]. apply IH, H.
  - destruct (String.eqb (xa_key a) "version").
    + apply rbind_ok in H. destruct H as (v & _ & H). eapply rtc_step; [apply P_version|]. apply IH, H.
    + apply IH, H.
Qed.
Lemma parse_root_p0 l : forall d d' r, parse_root d l = Ok (d', r) -> prims0 g d d' /\ incl r l.
Proof.
  induction l as [|ev l IH]; intros d d' r; cbn; [discriminate|].
  assert (K : parse_root d l = Ok (d', r) -> prims0 g d d' /\ incl r (ev :: l)).
  { intros H. apply IH in H. destruct H. split; [assumption|]. apply incl_tl. assumption. }
  destruct ev; try exact K; try discriminate.
  destruct ns; try discriminate. destruct (String.eqb name "FoLiA"); [|discriminate].
  intros H. apply rbind_ok in H. destruct H as (d1 & H & E). inversion E; subst.
  split; [eapply root_attrs_p0, H|apply incl_tl, incl_refl].
Qed.
Lemma proc_attr_pending p k v q : proc_attr p k v = Ok q -> pr_pending q = pr_pending p.
Proof.
  destruct p; unfold proc_attr. repeat (destruct (String.eqb _ _)); try (intros H; inversion H; reflexivity);
    try discriminate.
  all: destruct (dt_parse_typo v); try discriminate; intros H; inversion H; reflexivity.
Qed.
Lemma parse_processor_pending l p : parse_processor l = Ok p -> pr_pending p = [].
Proof.
  assert (K : forall l q p, parse_proc_attrs q l = Ok p -> pr_pending p = pr_pending q).
  { clear l p. induction l as [|[a|] l IH]; intros q p; cbn; intros H; [congruence| |apply IH, H].
    apply rbind_ok in H. destruct H as (v & _ & H). apply rbind_ok in H. destruct H as (q' & A & H).
    apply IH in H. apply proc_attr_pending in A. congruence. }
  intros H. apply K in H. exact H.
Qed.
Lemma parse_err_ok {A} (r : res A) a : parse_err r = Ok a -> r = Ok a.
Proof. destruct r; cbn; congruence. Qed.
Lemma parsed_proc_all l p : parse_err (parse_processor l) = Ok p -> proc_all (g_proc g) p.
Proof.
  intros H. apply parse_err_ok in H. constructor; [eapply Hproc, H|].
  rewrite (parse_processor_pending _ _ H). intros c [].
Qed.
Lemma add_parsed_processor_p0 d st p : proc_all (g_proc g) p -> prims0 g d (fst (add_parsed_processor d st p)).
Proof. intros G. unfold add_parsed_processor. apply rtc_map_err. destruct st; [apply add_processor_p0, G|apply add_subprocessor_p0, G]. Qed.
Lemma meta_empty_p0 d s ns name attrs : prims0 g d (fst (meta_empty d s ns name attrs)).
Proof.
  unfold meta_empty. destruct ns; try apply rtc_refl.
  destruct (String.eqb name "processor" && ms_prov s).
  - apply rtc_pure; intros p P. apply rtc_bind; [apply add_parsed_processor_p0; eapply parsed_proc_all, P|]. intros; apply rtc_refl.
  - destruct (String.eqb name "annotator" && ms_decls s); [|apply rtc_refl].
    apply rtc_pure; intros pid _. destruct pid, (ms_dk s); apply rtc_refl.
Qed.
Lemma parse_declaration_new tag l dec : parse_declaration tag l = Ok dec -> g_decl g dec.
Proof.
  unfold parse_declaration. intros H. apply rbind_ok in H. destruct H as (t & _ & H).
  apply rbind_ok in H. destruct H as ([[s a] f] & _ & H). inversion H; subst. apply Hdecl.
Qed.
Lemma meta_start_p0 d s ns name attrs : prims0 g d (fst (meta_start d s ns name attrs)).
Proof.
  unfold meta_start. destruct ns; try apply rtc_refl.
  destruct (String.eqb name "metadata"); [apply rtc_pure; intros; apply rtc_one, P_meta|].
  destruct (String.eqb name "annotations"); [apply rtc_refl|].
  destruct (String.eqb name "provenance"); [apply rtc_refl|].
  destruct (String.eqb name "submetadata"); [apply rtc_pure; intros x _; destruct (fst x); apply rtc_refl|].
  destruct (String.eqb name "meta"); [apply rtc_pure; intros; apply rtc_refl|].
  destruct (String.eqb name "processor" && ms_prov s).
  - apply rtc_pure; intros p P. apply rtc_bind; [apply add_parsed_processor_p0; eapply parsed_proc_all, P|]. intros; apply rtc_refl.
  - destruct (ms_decls s); [|apply rtc_refl].
    apply rtc_pure; intros dec D. apply rtc_bind; [apply rtc_map_err, rtc_one, P_decl_add|intros; apply rtc_refl].
    eapply parse_declaration_new, parse_err_ok, D.
Qed.
Lemma assign_annotators_p0 l : forall d, prims0 g d (assign_annotators d l).
Proof.
  induction l as [|[dk pid] l IH]; intros d; cbn; [apply rtc_refl|].
  eapply rtc_trans; [|apply IH].
  destruct (get_processor_key_by_id d pid) eqn:P; [|apply rtc_refl].
  unfold upd_declaration. destruct (get_declaration d dk) eqn:G; [|apply rtc_refl].
  apply rtc_one, P_decl_proc; [exact G|]. right; eauto.
Qed.
Lemma meta_close_p0 d s : prims0 g d (meta_close d s).
Proof.
  unfold meta_close. destruct (ms_text s), (ms_meta s); try apply rtc_refl.
  destruct (ms_sub s); [|apply rtc_one, P_meta].
  destruct (smap_get (doc_submetadata d) _); [apply rtc_one, P_submeta|apply rtc_refl].
Qed.
Lemma meta_end_p0 d s ns name : prims0 g d (fst (meta_end d s ns name)).
Proof.
  unfold meta_end. destruct ns; try apply rtc_refl.
  destruct (String.eqb name "submetadata"); [apply rtc_refl|].
  destruct (String.eqb name "metadata"); [apply rtc_refl|].
  destruct (String.eqb name "annotations"); [apply rtc_refl|].
  destruct (String.eqb name "provenance"); [apply assign_annotators_p0|].
  destruct (String.eqb name "processor" && ms_prov s); [apply rtc_refl|].
  destruct (String.eqb name "meta"); [apply meta_close_p0|].
  destruct (String.eqb name "annotator" && ms_decls s); [apply rtc_refl|].
  destruct (ms_decls s); apply rtc_refl.
Qed.
Lemma parse_metadata_p0 l : forall d s, prims0 g d (fst (parse_metadata d s l)).
Proof.
  induction l as [|ev l IH]; intros d s; cbn; [apply rtc_refl|].
  destruct ev as [ns name attrs|ns name attrs|ns name|[t|]|t|t| |]; try apply IH; try apply rtc_refl.
  - apply rtc_bind; [apply meta_start_p0|]. intros; apply IH.
  - apply rtc_bind; [apply meta_empty_p0|]. intros; apply IH.
  - pose proof (meta_end_p0 d s ns name) as P. destruct (meta_end d s ns name) as [d1 [s1|]]; cbn [fst] in P.
    + eapply rtc_trans; [exact P|apply IH].
    + exact P.
Qed.
Lemma parse_metadata_incl l : forall d s d' r, parse_metadata d s l = (d', Ok r) -> incl r l.
Proof.
  induction l as [|ev l IH]; intros d s d' r; cbn; [discriminate|].
  assert (K : forall d s, parse_metadata d s l = (d', Ok r) -> incl r (ev :: l)) by (intros; eapply incl_tl, IH; eassumption).
  destruct ev as [ns name attrs|ns name attrs|ns name|[t|]|t|t| |]; try apply K; try discriminate.
  - intros H. apply sbind_ok in H. destruct H as (d1 & s1 & _ & H). eapply K, H.
  - intros H. apply sbind_ok in H. destruct H as (d1 & s1 & _ & H). eapply K, H.
  - destruct (meta_end d s ns name) as [d1 [s1|]]; [apply K|]. intros H; inversion H; subst. apply incl_tl, incl_refl.
Qed.
Lemma add_attr_children_prims l : (forall c, In c l -> g_elem g (e_type c) (e_attribs c)) ->
  forall d k, prims g d (fst (add_attr_children d k l)).
Proof.
  induction l as [|c l IH]; intros G d k; cbn; [apply rtc_refl|].
  apply rtc_bind; [apply store_add_prims, G; left; reflexivity|]. intros d1 ck _.
  apply rtc_bind; [apply lift, attach_p0|]. intros; apply IH. intros x X; apply G; right; exact X.
Qed.
Lemma push_data_p0 d st s mk : (forall s, is_add (mk s) = false) -> prims0 g d (push_data d st s mk).
Proof.
  intros N. unfold push_data. destruct (is_blank s); [apply rtc_refl|]. destruct st; [apply rtc_refl|].
  apply upd_push_p0, N.
Qed.
Lemma parse_elem_guard O l ns name attrs x : load_ok g O l ->
  In (EvStart ns name attrs) l \/ In (EvEmpty ns name attrs) l -> parse_err (parse_elem O name attrs) = Ok x ->
  g_elem g (e_type (fst x)) (e_attribs (fst x)) /\ (forall c, In c (snd x) -> g_elem g (e_type c) (e_attribs c)).
Proof.
  intros L I H. apply parse_err_ok in H. unfold parse_elem in H. apply rbind_ok in H. destruct H as (et & E & H).
  apply ok_or_ok in E. apply rbind_ok in H. destruct H as (y & Y & H). apply parse_err_ok in Y. inversion H; subst. cbn.
  eapply L; eassumption.
Qed.
Lemma elements_step_prims fuel O l d st ev : load_ok g O l -> In ev l -> prims g d (fst (elements_step fuel O d st ev)).
Proof.
  intros L I.
  destruct ev as [ns name attrs|ns name attrs|ns name|[t|]|[t|]|[t|]| |]; cbn [elements_step]; try apply rtc_refl;
    try (apply lift, push_data_p0; reflexivity).
  - destruct ns; try apply rtc_refl.
    apply rtc_pure; intros x X. apply (parse_elem_guard O l _ _ _ _ L (or_introl I)) in X. destruct X as (X & XC).
    apply rtc_bind; [apply rtc_map_err, store_add_prims, X|]. intros d1 key _.
    apply rtc_bind; [apply add_attr_children_prims, XC|]. intros; apply rtc_refl.
  - destruct ns; try apply rtc_refl.
    apply rtc_pure; intros x X. apply (parse_elem_guard O l _ _ _ _ L (or_intror I)) in X. destruct X as (X & XC).
    apply rtc_bind; [apply rtc_map_err, store_add_prims, X|]. intros d1 key _.
    apply rtc_bind; [destruct st; [apply rtc_refl|apply lift, attach_p0]|]. intros d2 _ _.
    apply rtc_bind; [apply add_attr_children_prims, XC|]. intros d3 _ _.
    apply rtc_bind; [apply lift, post_add_p0|]. intros; apply rtc_refl.
  - destruct ns; try apply rtc_refl. destruct st as [|key [|top st]]; try apply rtc_refl.
    apply rtc_bind; [apply lift, post_add_p0|]. intros d1 _ _.
    destruct (get_elementdata d1 key); [|apply rtc_refl].
    apply rtc_pure; intros et _. destruct (et_eqb _ et); [|apply rtc_refl].
    apply rtc_bind; [apply lift, attach_p0|]. intros; apply rtc_refl.
Qed.
Lemma parse_elements_loop_prims fuel O L l : load_ok g O L -> incl l L -> forall d st, prims g d (fst (parse_elements_loop fuel O d st l)).
Proof.
  intros G. induction l as [|ev l IH]; intros IN d st; cbn; [apply rtc_refl|].
  apply rtc_bind; [eapply elements_step_prims; [exact G|apply IN; left; reflexivity]|]. intros d1 p _.
  destruct p; [|apply rtc_refl]. apply IH. intros x X. apply IN. right; exact X.
Qed.
Lemma parse_body_guard O L l b r : load_ok g O L -> incl l L -> parse_body O l = Ok (Some b, r) ->
  g_elem g (e_type b) (e_attribs b) /\ incl r L.
Proof.
  intros G. induction l as [|ev l IH]; intros IN; cbn; [discriminate|].
  assert (K : parse_body O l = Ok (Some b, r) -> g_elem g (e_type b) (e_attribs b) /\ incl r L).
  { apply IH. intros x X. apply IN. right; exact X. }
  destruct ev as [ns name attrs|ns name attrs|ns name|t|t|t| |]; try exact K; try discriminate. destruct ns; try discriminate.
  assert (IL : In (EvStart NsFolia name attrs) L) by (apply IN; left; reflexivity).
  assert (IR : incl l L) by (intros x X; apply IN; right; exact X).
  destruct (String.eqb_spec name "text") as [->|_]; [|destruct (String.eqb_spec name "speech") as [->|_]; [|discriminate]].
  - destruct (parse_attributes O ET_Text attrs) as [x| | |] eqn:P; try discriminate. intros H; inversion H; subst. cbn.
    split; [|exact IR]. eapply (G NsFolia "text"%string attrs (or_introl IL) ET_Text x eq_refl P).
  - destruct (parse_attributes O ET_Speech attrs) as [x| | |] eqn:P; try discriminate. intros H; inversion H; subst. cbn.
    split; [|exact IR]. eapply (G NsFolia "speech"%string attrs (or_introl IL) ET_Speech x eq_refl P).
Qed.

Lemma parse_document_prims_aux fuel O p l d :
  (forall a b, prims g a b -> st_wf pr_maybe_id (doc_procs a) -> st_wf pr_maybe_id (doc_procs b)) ->
  props_ok g p -> load_ok g O l ->
  parse_document fuel O p l = Ok d -> prims g (doc_empty "untitled" (dp_autodeclare p)) d.
Proof.
  intros HW GP GL. unfold parse_document. intros H. apply rbind_ok in H. destruct H as ([d1 l1] & R & H).
  apply parse_root_p0 in R. destruct R as (R & I1). apply lift in R.
  change (mkDoc _ _ _ _ _ _ _ _ _ _ _) with (doc_empty "untitled" (dp_autodeclare p)) in R.
  assert (W : st_wf pr_maybe_id (doc_procs (doc_empty "untitled" (dp_autodeclare p)))) by apply st_wf_empty.
  pose proof (parse_metadata_p0 l1 d1 ms_init) as M. apply lift in M.
  pose proof (parse_metadata_incl l1 d1 ms_init) as MI.
  destruct (parse_metadata d1 ms_init l1) as [d2 r2]. cbn [fst] in M.
  pose proof (rtc_trans _ _ _ _ R M) as RM.
  apply rbind_ok in H. destruct H as (l2 & E2 & H). subst r2. specialize (MI _ _ eq_refl).
  apply rbind_ok in H. destruct H as ([[body|] l3] & B & H); [|discriminate].
  apply (parse_body_guard O l) in B; [|exact GL|eapply incl_tran; eassumption]. destruct B as (GB & I3).
  match type of H with (let (_, _) := ?x in _) = _ => assert (P : prims g d2 (fst x)) end.
  { apply rtc_bind; [apply rtc_map_err, store_add_prims, GB|]. intros d3 k E3.
    assert (P3 : prims g (doc_empty "untitled" (dp_autodeclare p)) d3).
    { eapply rtc_trans; [exact RM|]. apply map_err_ok in E3. replace d3 with (fst (d3, Ok k)) by reflexivity.
      rewrite <- E3. apply store_add_prims, GB. }
    apply rtc_bind; [apply rtc_map_err, apply_properties_prims; [exact GP|eapply HW; eassumption]|]. intros d4 _ _.
    unfold parse_elements. destruct (st_items (doc_elements d4)); [apply rtc_refl|].
    eapply parse_elements_loop_prims; [exact GL|exact I3]. }
  match type of H with (let (_, _) := ?x in _) = _ => destruct x as [d5 r5] end. cbn [fst] in P.
  apply rbind_ok in H. destruct H as (u & _ & H). inversion H; subst. eapply rtc_trans; eassumption.
Qed.
End Ops.
