(* Properties C01 - C11: stores, keys, identifiers, declarations.
   [reachable anything d]: d was made by Document::new or by loading a file, then changed by any operations with
   any arguments. [history anything d l d']: the operations l lead from d to d'. See History.v. *)
From Coq Require Import String List Bool Arith NArith Lia.
From Verif Require Import Base BaseFacts Types TypesFacts SpecTable Attrib Element Store StoreFacts Metadata Document DocOps History FrameFacts InvFacts DocFacts StoreThms InternFacts Examples.
Import ListNotations.
Open Scope list_scope.

(* ================================================================ C01 *)
(* Any store, any later additions: the key returned for a new item retrieves it. *)
Theorem C01_store_key_retrieves : forall (T : Type) (maxkey : N) (maybe_id : T -> option string) (assign : nat -> T -> T)
    (s s1 : store T) (x : T) (k : nat) (later : list T),
  (forall id, maybe_id x = Some id -> st_id_to_key s id = None) ->
  st_add maxkey maybe_id assign s x = (s1, Ok k) ->
  st_get s1 k = Some (assign k x) /\
  st_get (fold_left (fun s y => fst (st_add maxkey maybe_id assign s y)) later s1) k = Some (assign k x).
Proof.
  intros T mk mi ak s s1 x k later N A.
  assert (K : st_get_key mi s x = None) by (unfold st_get_key; destruct (mi x) as [id|] eqn:E; [apply (N id eq_refl)|reflexivity]).
  pose proof (add_cases mk mi ak s x) as C. rewrite A in C. cbn [fst snd] in C.
  inversion C as [id j M J|s' K' L E IX|]; subst.
  - unfold st_get_key in K. rewrite M in K. congruence.
  - assert (G : st_get s1 (st_len s) = Some (ak (st_len s) x)) by (rewrite (st_get_snoc _ _ _ _ E), Nat.eqb_refl; reflexivity).
    split; [exact G|]. apply (adds_keeps mk mi ak later s1), G.
Qed.
Print Assumptions C01_store_key_retrieves.
(* The three stores of a document, whatever operations follow. [decl_keeps], [proc_keeps], [elem_keeps]
   (DocFacts.v) say what later operations may change in an item: a declaration may get more classes, subsets and
   processors, a processor more subprocessors and a parent, an element its content and parent. *)
Theorem C01_declaration_key_retrieves : forall d x d1 k l d2, reachable anything d ->
  get_declaration_key_by_id d (index_id (d_type x) (d_set x)) = None ->
  add_declaration d x = (d1, Ok k) -> history anything d1 l d2 ->
  get_declaration d1 k = Some (d_assign_key k x) /\
  exists y, get_declaration d2 k = Some y /\ decl_keeps (d_assign_key k x) y.
Proof. exact new_declaration_kept. Qed.
Print Assumptions C01_declaration_key_retrieves.
Theorem C01_processor_key_retrieves : forall d x d1 k l d2, reachable anything d ->
  get_processor_key_by_id d (pr_id x) = None ->
  add_provenance d x = (d1, Ok k) -> history anything d1 l d2 ->
  get_processor d1 k = Some (pr_assign_key k x) /\
  exists y, get_processor d2 k = Some y /\ proc_keeps (pr_assign_key k x) y.
Proof. exact new_processor_kept. Qed.
Print Assumptions C01_processor_key_retrieves.
Theorem C01_element_key_retrieves : forall d e ctx d1 k l d2, reachable anything d ->
  (forall id, e_id e = Some id -> get_element_key_by_id d id = None) ->
  store_add d e ctx = (d1, Ok k) -> history anything d1 l d2 ->
  exists e1, get_elementdata d1 k = Some e1 /\ e_key e1 = Some k /\
    e_type e1 = e_type e /\ e_data e1 = e_data e /\ e_parent e1 = e_parent e /\
    (exists refs, e_attribs e1 = filter (fun a => negb (a_encodable a)) (e_attribs e) ++ refs /\
                  forall a, In a refs -> decodable a = true) /\
    exists e2, get_elementdata d2 k = Some e2 /\ elem_keeps e1 e2.
Proof. exact new_element_kept. Qed.
Print Assumptions C01_element_key_retrieves.
(* add_element on an element without nested new elements is Store::add *)
Theorem C01_add_element_is_store_add : forall fuel d e,
  (forall c, ~ In (DAddElement c) (e_data e)) -> add_element fuel d e = store_add d e None.
Proof.
  intros fuel d e H. apply add_element_plain. apply not_true_is_false. intros E. apply existsb_exists in E.
  destruct E as (x & I & X). destruct x; try discriminate. exact (H _ I).
Qed.
Print Assumptions C01_add_element_is_store_add.

Example C01_nonvacuous :
  reachable anything ex_doc /\
  get_declaration_key_by_id ex_doc (index_id AT_SENSE (Some "s"%string)) = None /\
  (exists d1, add_declaration ex_doc (d_new AT_SENSE (Some "s"%string) None None) = (d1, Ok 5)) /\
  (exists d1, store_add ex_doc (e_attr ET_PosAnnotation [A_Class "c"; A_Set "posset"]) None = (d1, Ok 17)) /\
  (exists d1, add_provenance ex_doc (pr_new "proc3" "x") = (d1, Ok 3)) /\
  history anything ex_new ex_ops ex_doc.
Proof.
  split; [exact ex_reachable_any|]. split; [vm_compute; reflexivity|].
  split; [eexists; vm_compute; reflexivity|]. split; [eexists; vm_compute; reflexivity|]. split; [eexists; vm_compute; reflexivity|].
  eapply history_mono; [exact normal_anything|]. eapply exec_history. exact ex_exec.
Qed.

(* ================================================================ C02 *)
(* The key of a new item is the number of items stored before: the keys in use were exactly the smaller ones. *)
Theorem C02_declaration_keys_dense : forall d x d1 k, reachable anything d ->
  add_declaration d x = (d1, Ok k) -> get_declaration d k = None ->
  (forall j, j < k <-> exists y, get_declaration d j = Some y) /\
  (forall j, j <= k <-> exists y, get_declaration d1 j = Some y) /\
  (forall j y, get_declaration d j = Some y -> get_declaration d1 j = Some y).
Proof. exact declaration_key_dense. Qed.
Print Assumptions C02_declaration_keys_dense.
Theorem C02_processor_keys_dense : forall d x d1 k, reachable anything d ->
  add_provenance d x = (d1, Ok k) -> get_processor d k = None ->
  (forall j, j < k <-> exists y, get_processor d j = Some y) /\
  (forall j, j <= k <-> exists y, get_processor d1 j = Some y) /\
  (forall j y, get_processor d j = Some y -> get_processor d1 j = Some y).
Proof. exact processor_key_dense. Qed.
Print Assumptions C02_processor_keys_dense.
Theorem C02_element_keys_dense : forall d x ctx d1 k, reachable anything d ->
  store_add d x ctx = (d1, Ok k) -> get_elementdata d k = None ->
  (forall j, j < k <-> exists y, get_elementdata d j = Some y) /\
  (forall j, j <= k <-> exists y, get_elementdata d1 j = Some y) /\
  (forall j y, get_elementdata d j = Some y -> get_elementdata d1 j = Some y).
Proof. exact element_key_dense. Qed.
Print Assumptions C02_element_keys_dense.
(* No key is reused: after any operations an addition that yields a key not in use yields a different key. *)
Theorem C02_keys_never_reused : forall d l d2, reachable anything d -> history anything d l d2 ->
  (forall k1 x k2, get_elementdata d k1 = Some x -> get_elementdata d2 k2 = None -> k1 < k2) /\
  (forall k1 x k2, get_declaration d k1 = Some x -> get_declaration d2 k2 = None -> k1 < k2) /\
  (forall k1 x k2, get_processor d k1 = Some x -> get_processor d2 k2 = None -> k1 < k2).
Proof.
  intros d l d2 R H. assert (R2 : reachable anything d2) by (eapply history_reachable; eassumption).
  destruct (history_le _ _ _ _ anything_ok R H) as [(_ & _ & LE) (_ & _ & LD) (_ & _ & LP)].
  split; [|split]; intros k1 x k2 G1 G2; apply st_get_lt in G1.
  - pose proof (st_get_none_ge _ _ (elem_dense _ _ anything_ok R2) G2). lia.
  - pose proof (st_get_none_ge _ _ (decl_dense _ _ anything_ok R2) G2). lia.
  - pose proof (st_get_none_ge _ _ (proc_dense _ _ anything_ok R2) G2). lia.
Qed.
Print Assumptions C02_keys_never_reused.
Example C02_nonvacuous :
  (exists d1, add_declaration ex_doc (d_new AT_SENSE (Some "s"%string) None None) = (d1, Ok 5) /\ get_declaration ex_doc 5 = None /\ get_declaration ex_doc 4 <> None) /\
  (exists d1, store_add ex_doc (e_attr ET_PosAnnotation [A_Class "c"; A_Set "posset"]) None = (d1, Ok 17) /\ get_elementdata ex_doc 17 = None /\ get_elementdata ex_doc 16 <> None).
Proof. split; eexists; (split; [vm_compute; reflexivity|]); split; vm_compute; congruence. Qed.

(* ================================================================ C03 *)
Theorem C03_declaration_by_id : forall d id k, reachable anything d ->
  (get_declaration_key_by_id d id = Some k <-> exists x, get_declaration d k = Some x /\ index_id (d_type x) (d_set x) = id).
Proof. exact get_by_id_declaration. Qed.
Print Assumptions C03_declaration_by_id.
Theorem C03_processor_by_id : forall d id k, reachable anything d ->
  (get_processor_key_by_id d id = Some k <-> exists x, get_processor d k = Some x /\ pr_id x = id).
Proof. exact get_by_id_processor. Qed.
Print Assumptions C03_processor_by_id.
(* Elements: never a panic, every stored ID is found; but a found element may have lost its ID. *)
Theorem C03_element_by_id_partial : forall d id, reachable anything d ->
  get_elementdata_by_id d id <> Panic /\
  (forall k, get_element_key_by_id d id = Some k -> exists e, get_elementdata d k = Some e /\
     (e_id e = Some id \/ group_contains EG_Layer (e_type e) = true /\ exists dk, e_attribs e = [A_DeclarationRef dk])) /\
  (forall k e, get_elementdata d k = Some e -> e_id e = Some id -> get_element_key_by_id d id = Some k).
Proof. exact get_by_id_element. Qed.
Print Assumptions C03_element_by_id_partial.
(* Exact if no layer that has an ID is built without a set. *)
Theorem C03_element_by_id_exact_partial : forall d id k, reachable no_bare_layer_id d ->
  (get_element_key_by_id d id = Some k <-> exists e, get_elementdata d k = Some e /\ e_id e = Some id).
Proof. exact get_by_id_element_exact. Qed.
Print Assumptions C03_element_by_id_exact_partial.
(* Otherwise a layer loses its ID when its set is derived from its contents. *)
Definition bare_layer : elementdata :=
  e_add_element (e_attr ET_EntitiesLayer [A_Id "layer.1"]) (ex_span "per" ["w.2"%string]).
Theorem C03_element_by_id_refuted : exists d id k e, reachable normal d /\
  get_element_key_by_id d id = Some k /\ get_elementdata d k = Some e /\ e_id e = None.
Proof.
  destruct (exec fuel1 ex_new [OAddElementTo 0 ex_par; OAddElementTo 10 bare_layer]) as [d|] eqn:E; [|vm_compute in E; discriminate].
  exists d, "layer.1"%string.
  assert (R := exec_reachable _ _ _ _ ex_new_reachable E).
  vm_compute in E. inversion E; subst. eexists _, _. split; [exact R|]. split; [vm_compute; reflexivity|]. split; [vm_compute; reflexivity|]. reflexivity.
Qed.
Print Assumptions C03_element_by_id_refuted.
Example C03_nonvacuous :
  get_element_key_by_id ex_doc "w.2" = Some 6 /\ get_element_key_by_id ex_doc "w.9" = None /\
  get_processor_key_by_id ex_doc "proc2.1" = Some 2 /\ get_declaration_key_by_id ex_doc "pos/posset" = Some 3.
Proof. vm_compute. auto. Qed.

(* ================================================================ C04 *)
Theorem C04_duplicate_declaration : forall d x k, get_declaration_key_by_id d (index_id (d_type x) (d_set x)) = Some k ->
  add_declaration d x = (d, Ok k).
Proof.
  intros d x k H. unfold add_declaration, st_add, st_get_key. cbn [d_maybe_id].
  unfold get_declaration_key_by_id, st_id_to_key in H. unfold d_maybe_id. rewrite H, doc_with_decls_id. reflexivity.
Qed.
Print Assumptions C04_duplicate_declaration.
Theorem C04_duplicate_processor : forall d x k, get_processor_key_by_id d (pr_id x) = Some k ->
  add_provenance d x = (d, Ok k).
Proof.
  intros d x k H. unfold add_provenance, st_add, st_get_key. unfold pr_maybe_id.
  unfold get_processor_key_by_id, st_id_to_key in H. rewrite H, doc_with_procs_id. reflexivity.
Qed.
Print Assumptions C04_duplicate_processor.
(* encoding may declare and intern; then the existing key is returned and the elements are as before *)
Theorem C04_duplicate_element : forall d e ctx id k, e_id e = Some id -> get_element_key_by_id d id = Some k ->
  doc_elements (fst (store_add d e ctx)) = doc_elements d /\
  (forall d' e', encode d e ctx = (d', Ok e') -> store_add d e ctx = (d', Ok k)).
Proof.
  intros d e ctx id k I K. pose proof (store_add_cases d e ctx) as C. pose proof (encode_elements d e ctx) as EE.
  destruct (store_add d e ctx) as [d1 r]. cbn [fst snd] in *.
  inversion C as [d2 e2 id' k' E2 I' J|d2 e2 s E2 N' B IT IX|d2 e2 E2 N' B|d2 r' E2 NR Q R1]; subst; rewrite E2 in EE; cbn [fst] in EE.
  - split; [exact EE|]. intros d' e' X. rewrite E2 in X. inversion X; subst. rewrite I in I'. inversion I'; subst. rewrite K in J. inversion J. reflexivity.
  - rewrite (N' _ I) in K. discriminate.
  - rewrite (N' _ I) in K. discriminate.
  - split; [exact EE|]. intros d' e' X. rewrite E2 in X. inversion X; subst. exfalso. eapply NR. reflexivity.
Qed.
Print Assumptions C04_duplicate_element.
Example C04_nonvacuous :
  let e := e_attr ET_Word [A_Id "w.2"; A_Class "OTHER"; A_Set "tokset"] in
  e_id e = Some "w.2"%string /\ snd (store_add ex_doc e None) = Ok 6 /\
  get_declaration_key_by_id ex_doc (index_id AT_POS (Some "posset"%string)) = Some 3 /\
  get_processor_key_by_id ex_doc "proc1" = Some 0.
Proof. vm_compute. auto. Qed.

(* ================================================================ C05 *)
Theorem C05_declaration_limit : forall d x, get_declaration_key_by_id d (index_id (d_type x) (d_set x)) = None ->
  ((N.of_nat (length (st_items (doc_decls d))) <= 65535)%N -> snd (add_declaration d x) = Ok (length (st_items (doc_decls d)))) /\
  ((65535 < N.of_nat (length (st_items (doc_decls d))))%N -> add_declaration d x = (d, Err EInternal)).
Proof. exact add_declaration_limit. Qed.
Print Assumptions C05_declaration_limit.
Theorem C05_processor_limit : forall d x, get_processor_key_by_id d (pr_id x) = None ->
  ((N.of_nat (length (st_items (doc_procs d))) <= 65535)%N -> snd (add_provenance d x) = Ok (length (st_items (doc_procs d)))) /\
  ((65535 < N.of_nat (length (st_items (doc_procs d))))%N -> add_provenance d x = (d, Err EInternal)).
Proof. exact add_provenance_limit. Qed.
Print Assumptions C05_processor_limit.
Theorem C05_element_limit : forall d e ctx d' e1, encode d e ctx = (d', Ok e1) ->
  (forall id, e_id e = Some id -> get_element_key_by_id d id = None) ->
  ((N.of_nat (length (st_items (doc_elements d))) <= 4294967295)%N -> snd (store_add d e ctx) = Ok (length (st_items (doc_elements d)))) /\
  ((4294967295 < N.of_nat (length (st_items (doc_elements d))))%N ->
     snd (store_add d e ctx) = Err EInternal /\ doc_elements (fst (store_add d e ctx)) = doc_elements d).
Proof. exact store_add_limit. Qed.
Print Assumptions C05_element_limit.
(* the vocabularies of a declaration: classes and subclasses have 32 bit keys, subsets 16 bit keys *)
Definition vocab_size (o : option sstore) : N := match o with Some s => N.of_nat (length (st_items s)) | None => 0 end.
Theorem C05_vocabulary_limit : forall dec x,
  (d_class_key dec x = None ->
     ((vocab_size (d_classes dec) <= 4294967295)%N -> exists k, snd (d_add_class dec x) = Ok k /\ N.of_nat k = vocab_size (d_classes dec)) /\
     ((4294967295 < vocab_size (d_classes dec))%N -> d_add_class dec x = (dec, Err EInternal))) /\
  (d_subset_key dec x = None ->
     ((vocab_size (d_subsets dec) <= 65535)%N -> exists k, snd (d_add_subset dec x) = Ok k /\ N.of_nat k = vocab_size (d_subsets dec)) /\
     ((65535 < vocab_size (d_subsets dec))%N -> d_add_subset dec x = (dec, Err EInternal))) /\
  (d_subclass_key dec x = None ->
     ((vocab_size (d_subclasses dec) <= 4294967295)%N -> exists k, snd (d_add_subclass dec x) = Ok k /\ N.of_nat k = vocab_size (d_subclasses dec)) /\
     ((4294967295 < vocab_size (d_subclasses dec))%N -> d_add_subclass dec x = (dec, Err EInternal))).
Proof.
  intros dec x.
  assert (V : forall o : option sstore, N.of_nat (length (st_items (match o with Some s => s | None => st_empty end))) = vocab_size o) by (intros [s|]; reflexivity).
  unfold d_class_key, d_subset_key, d_subclass_key, d_add_class, d_add_subset, d_add_subclass.
  split; [|split]; intros K; match goal with |- context [sopt_add ?m ?o x] => pose proof (sopt_limit m o x K) as L end; cbv zeta in L; rewrite V in L;
    destruct L as (A & B); (split; intros H; [specialize (A H)|destruct (B H) as (_ & E)]);
    match goal with |- context [sopt_add ?m ?o x] => destruct (sopt_add m o x) as [o' r] end; cbn in *.
  all: try (eexists; split; [eassumption|apply V]).
  all: inversion E; subst; destruct dec; reflexivity.
Qed.
Print Assumptions C05_vocabulary_limit.
(* no stored key is too large for its type, so keys are never truncated *)
Theorem C05_keys_fit : forall d, reachable anything d ->
  (forall k e, get_elementdata d k = Some e -> (N.of_nat k <= 4294967295)%N) /\
  (forall k x, get_declaration d k = Some x -> (N.of_nat k <= 65535)%N) /\
  (forall k x, get_processor d k = Some x -> (N.of_nat k <= 65535)%N).
Proof. exact keys_bounded. Qed.
Print Assumptions C05_keys_fit.
Definition full_doc : document := doc_with_procs ex_doc (mkStore (repeat (Some proc1) (N.to_nat 65536)) []).
Definition nearly_full_doc : document := doc_with_procs ex_doc (mkStore (repeat (Some proc1) (N.to_nat 65535)) []).
Example C05_nonvacuous :
  snd (add_provenance full_doc (pr_new "new" "new")) = Err EInternal /\
  match snd (add_provenance nearly_full_doc (pr_new "new" "new")) with Ok k => N.of_nat k = 65535%N | _ => False end.
Proof. split; vm_compute; reflexivity. Qed.

(* ================================================================ C06 *)
(* One declaration, any mix of encodings before, between and after (VClass, VSubset, VSubclass: InternFacts.v). *)
Theorem C06_interning_bijection : forall t set alias format before (v : vocab) x y k1 k2 dec1 between dec2,
  v_add v (v_adds (d_new t set alias format) before) x = (dec1, Ok k1) ->
  v_add v (v_adds dec1 between) y = (dec2, Ok k2) ->
  v_get v dec2 k1 = Some x /\ v_get v dec2 k2 = Some y /\ (k1 = k2 <-> x = y).
Proof.
  intros t set alias format before v x y k1 k2 dec1 between dec2. apply v_bijection. apply v_adds_wf, decl_new_wf.
Qed.
Print Assumptions C06_interning_bijection.
Theorem C06_later_encodings_keep_keys : forall dec v k x later, v_get v dec k = Some x -> v_get v (v_adds dec later) k = Some x.
Proof. intros dec v k x later H. destruct (v_keeps v _ _ (v_adds_keeps later dec)) as (G & _). apply G, H. Qed.
Print Assumptions C06_later_encodings_keep_keys.
(* the same through Document::add_class with any operations in between *)
Theorem C06_class_bijection : forall d dk c1 k1 d1 l d2 c2 k2 d3, reachable normal d ->
  doc_add_class d dk c1 = (d1, Ok k1) -> history normal d1 l d2 -> doc_add_class d2 dk c2 = (d3, Ok k2) ->
  (exists dec, get_declaration d3 dk = Some dec /\ d_get_class dec k1 = Some c1 /\ d_get_class dec k2 = Some c2) /\
  doc_class_key d3 dk c1 = Ok k1 /\ doc_class_key d3 dk c2 = Ok k2 /\ (k1 = k2 <-> c1 = c2).
Proof. exact class_bijection. Qed.
Print Assumptions C06_class_bijection.
Example C06_nonvacuous :
  let before := [(VClass, "a"%string); (VSubclass, "b"%string); (VSubset, "a"%string); (VClass, "b"%string)] in
  let dec := v_adds (d_new AT_POS (Some "s"%string) None None) before in
  snd (v_add VClass dec "c") = Ok 2 /\ snd (v_add VClass dec "a") = Ok 0 /\ snd (v_add VSubclass dec "c") = Ok 1 /\
  (exists d1, doc_add_class ex_doc 3 "verb" = (d1, Ok 3)).
Proof. vm_compute. repeat split; eauto. Qed.

(* ================================================================ C07 *)
Theorem C07_declaration_identity : forall t1 s1 t2 s2, index_id t1 s1 = index_id t2 s2 -> t1 = t2 /\ s1 = s2.
Proof. exact index_id_inj. Qed.
Print Assumptions C07_declaration_identity.
(* so a declaration is found under (type, set) exactly if it has that type and that set *)
Theorem C07_found_by_type_and_set : forall d t s k, reachable anything d ->
  (get_declaration_key_by_id d (index_id t s) = Some k <-> exists x, get_declaration d k = Some x /\ d_type x = t /\ d_set x = s).
Proof.
  intros d t s k R. rewrite (get_by_id_declaration d _ k R). split; intros (x & G & E); exists x.
  - apply index_id_inj in E. tauto.
  - destruct E as (<- & <-). auto.
Qed.
Print Assumptions C07_found_by_type_and_set.
Example C07_nonvacuous : index_id AT_POS (Some "x"%string) = "pos/x"%string /\ index_id AT_POS None = "pos"%string /\
  index_id AT_POS (Some "/lemma/x"%string) = "pos//lemma/x"%string.
Proof. repeat split. Qed.

(* ================================================================ C08 *)
(* k is the only declaration of type t *)
Definition only_declaration (d : document) (t : AnnotationType) (k : nat) : Prop :=
  (exists x, get_declaration d k = Some x /\ d_type x = t) /\
  forall j y, get_declaration d j = Some y -> d_type y = t -> j = k.
Theorem C08_declare_result : forall d t set alias format d1 k, reachable anything d ->
  declare d t set alias format = (d1, Ok k) ->
  exists dec, get_declaration d1 k = Some dec /\ d_type dec = t /\
    (d_set dec = set \/ set = None /\ only_declaration d1 t k).
Proof. intros d t set alias format d1 k R. apply declare_result. exact (reachable_ok _ _ anything_ok R). Qed.
Print Assumptions C08_declare_result.
Theorem C08_declare_again : forall d t set alias format d1 k, reachable anything d ->
  declare d t set alias format = (d1, Ok k) ->
  forall alias' format', declare d1 t set alias' format' = (d1, Ok k).
Proof. intros d t set alias format d1 k R. apply declare_again. exact (reachable_ok _ _ anything_ok R). Qed.
Print Assumptions C08_declare_again.
(* it fails only when the 65536 declarations are used up *)
Theorem C08_declare_succeeds : forall d t set alias format, reachable anything d ->
  (exists d1 k, declare d t set alias format = (d1, Ok k)) \/
  (declare d t set alias format = (d, Err EInternal) /\ length (st_items (doc_decls d)) = N.to_nat 65536).
Proof.
  intros d t set alias format R. pose proof (reachable_ok _ _ anything_ok R) as W.
  pose proof (declare_cases d t set alias format W) as C. destruct (declare d t set alias format) as [d1 r]. cbn [fst snd] in C.
  inversion C as [k' dec X G T S|k' dec S X O G T|d2 X DD A G X2|X B]; subst; eauto. right. split; [reflexivity|].
  destruct W as (_ & (_ & BD & _) & _). unfold st_bounded, max_dec, u16_max in *. unfold st_len in *. lia.
Qed.
Print Assumptions C08_declare_succeeds.
Example C08_nonvacuous :
  (exists d1, declare ex_doc AT_SENSE (Some "senses"%string) None None = (d1, Ok 5)) /\
  (exists d1, declare ex_doc AT_POS None None None = (d1, Ok 3)) /\ only_declaration ex_doc AT_POS 3.
Proof.
  split; [eexists; vm_compute; reflexivity|]. split; [eexists; vm_compute; reflexivity|].
  apply default_key_spec. vm_compute. reflexivity.
Qed.

(* ================================================================ C09 *)
Theorem C09_declarations_stable : forall d l d2 k x, reachable anything d -> history anything d l d2 ->
  get_declaration d k = Some x ->
  exists y, get_declaration d2 k = Some y /\ d_type y = d_type x /\ d_set y = d_set x /\
    d_alias y = d_alias x /\ d_format y = d_format x /\
    (exists more, d_processors y = d_processors x ++ more) /\
    (forall c s, d_get_class x c = Some s -> d_get_class y c = Some s) /\
    (forall c s, d_get_subset x c = Some s -> d_get_subset y c = Some s) /\
    (forall c s, d_get_subclass x c = Some s -> d_get_subclass y c = Some s).
Proof.
  intros d l d2 k x R H G. destruct (history_le _ _ _ _ anything_ok R H) as [_ (L & _) _].
  destruct (L _ _ G) as (y & Y & K). exists y. split; [exact Y|]. destruct K. auto 10.
Qed.
Print Assumptions C09_declarations_stable.
Theorem C09_declaration_ids_stable : forall d l d2 t s k, reachable anything d -> history anything d l d2 ->
  get_declaration_key_by_id d (index_id t s) = Some k -> get_declaration_key_by_id d2 (index_id t s) = Some k.
Proof. intros d l d2 t s k R H G. destruct (history_le _ _ _ _ anything_ok R H) as [_ (_ & L & _) _]. apply L, G. Qed.
Print Assumptions C09_declaration_ids_stable.
Example C09_nonvacuous : exists x y, get_declaration ex_new 1 = Some x /\ get_declaration ex_doc 1 = Some y /\
  d_get_class x 0 = None /\ d_get_class y 0 = Some "WORD"%string /\ history anything ex_new ex_ops ex_doc.
Proof.
  eexists _, _. split; [vm_compute; reflexivity|]. split; [vm_compute; reflexivity|]. split; [reflexivity|]. split; [reflexivity|].
  eapply history_mono; [exact normal_anything|]. eapply exec_history. exact ex_exec.
Qed.

(* ================================================================ C10 *)
Theorem C10_default_key : forall d t k, get_default_key (doc_decls d) t = Some k <-> only_declaration d t k.
Proof. intros d t k. apply default_key_spec. Qed.
Print Assumptions C10_default_key.
Theorem C10_default_mask : forall d k x, get_declaration d k = Some x ->
  (nth_error (default_mask (doc_decls d)) k = Some true <-> get_default_key (doc_decls d) (d_type x) = Some k).
Proof. intros d k x. apply default_mask_spec. Qed.
Print Assumptions C10_default_mask.
Theorem C10_default_set : forall d t s, get_default_set d t = Some s <->
  exists k x, only_declaration d t k /\ get_declaration d k = Some x /\ d_set x = Some s.
Proof.
  intros d t s. unfold get_default_set. destruct (get_default_key (doc_decls d) t) as [k|] eqn:K.
  - apply default_key_spec in K. pose proof K as ((x & G & T) & U). unfold get_declaration. rewrite G. split.
    + intros S. exists k, x. auto.
    + intros (k' & x' & (E & _) & G' & S). destruct E as (x2 & G2 & T2). assert (k' = k) by exact (U _ _ G2 T2). subst k'. unfold get_declaration in G'. congruence.
  - split; [discriminate|]. intros (k & x & O & _). apply default_key_spec in O. congruence.
Qed.
Print Assumptions C10_default_set.
Example C10_nonvacuous : get_default_key (doc_decls ex_doc) AT_POS = Some 3 /\ get_default_set ex_doc AT_POS = Some "posset"%string /\
  default_mask (doc_decls (fst (declare ex_doc AT_POS (Some "other"%string) None None))) = [true; true; true; false; true; false].
Proof. vm_compute. auto. Qed.

(* ================================================================ C11 *)
(* If (type, set) is not indexed yet, the active processor is associated with the result. *)
Theorem C11_active_processor_partial : forall d t set alias format d1 k pk, reachable anything d ->
  doc_active d = Some pk -> get_declaration_key_by_id d (index_id t set) = None ->
  declare d t set alias format = (d1, Ok k) ->
  exists dec, get_declaration d1 k = Some dec /\ In pk (d_processors dec).
Proof.
  intros d t set alias format d1 k pk R A X H. pose proof (reachable_ok _ _ anything_ok R) as W.
  pose proof (declare_cases d t set alias format W) as C. rewrite H in C. cbn [fst snd] in C.
  inversion C as [k' dec X' G T S|k' dec S X' O G T|d2 X' DD AD G X2|]; subst.
  - congruence.
  - unfold with_active. rewrite A. rewrite get_assoc_decl, Nat.eqb_refl, G. eexists; split; [reflexivity|]. apply push_if_absent_In.
  - unfold with_active. replace (doc_active d2) with (Some pk).
    + rewrite get_assoc_decl, Nat.eqb_refl, G. eexists; split; [reflexivity|]. apply push_if_absent_In.
    + replace d2 with (fst (add_declaration d (d_new t set alias format))) by (rewrite AD; reflexivity).
      rewrite add_declaration_fst. symmetry. exact A.
Qed.
Print Assumptions C11_active_processor_partial.
(* A declaration that exists already does not get the active processor. *)
Theorem C11_active_processor_refuted : exists d t set d1 k pk dec, reachable normal d /\ doc_active d = Some pk /\
  declare d t set None None = (d1, Ok k) /\ get_declaration d1 k = Some dec /\ ~ In pk (d_processors dec).
Proof.
  exists ex_doc, AT_POS, (Some "posset"%string). eexists _, 3, 1, _. split; [exact ex_reachable|]. split; [vm_compute; reflexivity|].
  split; [vm_compute; reflexivity|]. split; [vm_compute; reflexivity|]. cbn. intros [H|[]]. discriminate.
Qed.
Print Assumptions C11_active_processor_refuted.
Example C11_nonvacuous : doc_active ex_doc = Some 1 /\ get_declaration_key_by_id ex_doc (index_id AT_POS None) = None /\
  (exists d1, declare ex_doc AT_POS None None None = (d1, Ok 3)) /\ get_declaration_key_by_id ex_doc (index_id AT_SENSE None) = None.
Proof. vm_compute. eauto 10. Qed.
