(* How many classes the declarations know while a file is loaded: none after its metadata. *)
From Coq Require Import String Ascii List Bool Arith NArith Lia.
From Verif Require Import Base BaseFacts Types TypesFacts SpecTable Attrib AttribFacts Element Store StoreFacts Metadata Document Select DocOps Xml Parser Serialiser History Spec
  FrameFacts InvFacts DocFacts Examples StoreThms InternFacts EncodeFacts PropsEncode LinkFacts TreeFacts ForestFacts SelSpec SelectFacts PropsLinks PropsQuery SerSpec PropsSer ParseSpec ParseFacts PropsParse PropsProv
  NoPanic Returns RoundFacts RoundProv RoundSpec RoundTree PropsRound PropsTree WellSpec LoadOk PropsWell SaveSpec SaveOk.
Import ListNotations.
Open Scope string_scope.
Open Scope list_scope.

Definition classes_le (n : N) (d : document) : Prop := forall k x, get_declaration d k = Some x -> (v_size VClass x <= n)%N.
Lemma classes_same n a b : doc_decls b = doc_decls a -> classes_le n a -> classes_le n b.
Proof. intros E H k x G. apply (H k). unfold get_declaration in *. congruence. Qed.
Lemma classes_set n d k z y : classes_le n d -> get_declaration d k = Some z -> (v_size VClass y <= n)%N -> classes_le n (doc_with_decls d (st_set (doc_decls d) k y)).
Proof.
  intros H E L j x G. unfold get_declaration in *. cbn [doc_with_decls doc_decls] in G. destruct (Nat.eq_dec j k) as [->|N].
  - rewrite (st_get_set_same _ _ _ _ E) in G. injection G as <-. exact L.
  - rewrite st_get_set_other in G by exact N. apply (H j). exact G.
Qed.
Lemma classes_procs n d k f : classes_le n d -> classes_le n (upd_declaration d k (fun x => d_with_processors x (f x))).
Proof.
  intros H. unfold upd_declaration. destruct (get_declaration d k) as [x|] eqn:G; [|exact H]. eapply classes_set; [exact H|exact G|]. exact (H _ _ G).
Qed.
Lemma classes_add n d x : classes_le n d -> (v_size VClass x <= n)%N -> classes_le n (fst (add_declaration d x)).
Proof.
  intros H L j y G. rewrite add_declaration_fst in G. unfold get_declaration in G. cbn [doc_with_decls doc_decls] in G.
  destruct (add_case_of max_dec d_maybe_id d_assign_key (doc_decls d) x (index_id (d_type x) (d_set x)) eq_refl) as [k K|s' K B GE IX LE|K B]; [apply (H j), G| |apply (H j), G].
  rewrite GE in G. destruct (Nat.eqb j (st_len (doc_decls d))); [injection G as <-; exact L|apply (H j), G].
Qed.

(* ---------------------------------------------------------------- processors leave the declarations alone *)
Definition decls_kept (a b : document) : Prop := doc_decls b = doc_decls a.
Lemma kept_bind {A B} d (r : document * res A) (f : document -> A -> document * res B) : decls_kept d (fst r) -> (forall d1 a, r = (d1, Ok a) -> decls_kept d1 (fst (f d1 a))) -> decls_kept d (fst (sbind r f)).
Proof. unfold decls_kept. destruct r as [d1 [a|e| |]]; cbn; intros X F; try exact X. rewrite (F d1 a eq_refl). exact X. Qed.
Lemma kept_provenance d p : decls_kept d (fst (add_provenance d p)).
Proof. unfold add_provenance. destruct (st_add _ _ _ _ _) as [s r]. reflexivity. Qed.
Lemma kept_upd_proc d k f : decls_kept d (upd_processor d k f).
Proof. unfold upd_processor. destruct (get_processor d k); reflexivity. Qed.
Lemma kept_attach d a b : decls_kept d (fst (attach_processor d a b)).
Proof.
  unfold attach_processor. destruct (get_processor d a); [|reflexivity]. destruct (get_processor d b); [|reflexivity]. cbn [fst].
  unfold decls_kept. rewrite kept_upd_proc. apply kept_upd_proc.
Qed.
Lemma kept_sub p : forall d k, decls_kept d (fst (add_subprocessor d k p)).
Proof.
  induction p as [p IH] using (well_founded_ind (well_founded_ltof _ proc_size)). intros d k. rewrite add_subprocessor_eq.
  apply kept_bind; [apply kept_provenance|]. intros d1 c _. apply kept_bind; [apply kept_attach|]. intros d2 _ _. apply kept_bind; [|intros; reflexivity].
  assert (IH' : forall q, In q (pr_pending p) -> forall d k, decls_kept d (fst (add_subprocessor d k q))).
  { intros q Q. apply IH. unfold ltof. rewrite (size_eq p). clear - Q. induction (pr_pending p) as [|x l IHl]; [destruct Q|]. change (list_sum (map proc_size (x :: l))) with (proc_size x + list_sum (map proc_size l)).
    destruct Q as [->|Q]; [lia|]. specialize (IHl Q). lia. }
  clear IH. revert d2. induction (pr_pending p) as [|q l IHl]; intros d2; cbn [add_subprocessors]; [reflexivity|].
  apply kept_bind; [apply IH'; left; reflexivity|]. intros d3 _ _. apply IHl. intros q' Q. apply IH'. right. exact Q.
Qed.
Lemma kept_subs l : forall d k, decls_kept d (fst (add_subprocessors d k l)).
Proof. induction l as [|q l IH]; intros d k; cbn [add_subprocessors]; [reflexivity|]. apply kept_bind; [apply kept_sub|]. intros; apply IH. Qed.
Lemma kept_parsed d st p : decls_kept d (fst (add_parsed_processor d st p)).
Proof.
  unfold add_parsed_processor. assert (Q : forall r : document * res nat, decls_kept d (fst r) -> decls_kept d (fst (map_err EParse r))) by (intros [x [a|e| |]]; auto).
  apply Q. destruct st; [|apply kept_sub]. unfold add_processor. apply kept_bind; [apply kept_provenance|]. intros d1 c _. unfold decls_kept. change (doc_decls d1) with (doc_decls (doc_with_chain d1 (doc_chain d1 ++ [c]))).
  apply kept_bind; [apply kept_subs|intros; reflexivity].
Qed.
Lemma kept_ok {A} d (r : document * res A) d1 a : r = (d1, Ok a) -> decls_kept d (fst r) -> decls_kept d d1.
Proof. intros ->. auto. Qed.

(* ---------------------------------------------------------------- the metadata *)
Lemma parsed_unclassed n a x : parse_declaration n a = Ok x -> d_classes x = None.
Proof.
  unfold parse_declaration. intros H. apply rbind_ok in H. destruct H as (t & _ & H). apply rbind_ok in H. destruct H as (((s & al) & f) & _ & H). injection H as <-. reflexivity.
Qed.
Lemma parse_err_ok {A} (r : res A) a : parse_err r = Ok a -> r = Ok a.
Proof. destruct r; cbn; congruence. Qed.
Lemma meta_start_classes m d s ns n a d1 s1 : meta_start d s ns n a = (d1, Ok s1) -> classes_le m d -> classes_le m d1.
Proof.
  unfold meta_start. destruct ns; try discriminate.
  destruct (String.eqb n "metadata"); [intros H; apply sbind_ok in H; destruct H as (d2 & x & E & H); injection E as <- _; injection H as <- _; apply classes_same; reflexivity|].
  destruct (String.eqb n "annotations"); [intros H; injection H as <- _; auto|]. destruct (String.eqb n "provenance"); [intros H; injection H as <- _; auto|].
  destruct (String.eqb n "submetadata"); [intros H; apply sbind_ok in H; destruct H as (d2 & x & E & H); injection E as <- _; destruct (fst x); [injection H as <- _; auto|discriminate]|].
  destruct (String.eqb n "meta"); [intros H; apply sbind_ok in H; destruct H as (d2 & x & E & H); injection E as <- _; injection H as <- _; auto|].
  destruct (String.eqb n "processor" && ms_prov s).
  - intros H. apply sbind_ok in H. destruct H as (d2 & p & E & H). injection E as <- E. apply sbind_ok in H. destruct H as (d3 & k & E3 & H). injection H as <- _. apply classes_same. eapply kept_ok; [exact E3|apply kept_parsed].
  - destruct (ms_decls s); [|discriminate]. intros H. apply sbind_ok in H. destruct H as (d2 & x & E & H). injection E as <- E. apply sbind_ok in H. destruct H as (d3 & k & E3 & H). injection H as <- _.
    apply map_err_ok in E3. intros C. pose proof (classes_add m d x C) as Q. rewrite E3 in Q. apply Q. apply parse_err_ok, parsed_unclassed in E. unfold v_size. cbn [v_store]. rewrite E. lia.
Qed.
Lemma annotators_classes m l : forall d, classes_le m d -> classes_le m (assign_annotators d l).
Proof.
  induction l as [|[dk pid] l IH]; intros d C; cbn [assign_annotators]; [exact C|]. apply IH. destruct (get_processor_key_by_id d pid); [|exact C]. apply (classes_procs m d dk (fun x => d_processors x ++ [n])). exact C.
Qed.
Lemma meta_end_classes m d s ns n : classes_le m d -> classes_le m (fst (meta_end d s ns n)).
Proof.
  intros C. unfold meta_end. destruct ns; try exact C. destruct (String.eqb n "submetadata"); [exact C|]. destruct (String.eqb n "metadata"); [exact C|]. destruct (String.eqb n "annotations"); [exact C|].
  destruct (String.eqb n "provenance"); [apply annotators_classes, C|]. destruct (String.eqb n "processor" && ms_prov s); [exact C|].
  destruct (String.eqb n "meta"); [cbn [fst]; unfold meta_close; repeat match goal with |- context [match ?x with _ => _ end] => destruct x end; try exact C; (eapply classes_same; [|exact C]; reflexivity)|].
  destruct (String.eqb n "annotator" && ms_decls s); [exact C|]. destruct (ms_decls s); exact C.
Qed.
Lemma meta_empty_kept d s ns n a d1 s1 : meta_empty d s ns n a = (d1, Ok s1) -> decls_kept d d1.
Proof.
  unfold meta_empty. destruct ns; try (intros H; injection H as <- _; reflexivity). destruct (String.eqb n "processor" && ms_prov s).
  - intros H. apply sbind_ok in H. destruct H as (d2 & p & E & H). injection E as <- E. apply sbind_ok in H. destruct H as (d3 & k & E3 & H). injection H as <- _. eapply kept_ok; [exact E3|apply kept_parsed].
  - destruct (String.eqb n "annotator" && ms_decls s); [|intros H; injection H as <- _; reflexivity].
    intros H. apply sbind_ok in H. destruct H as (d2 & p & E & H). injection E as <- E. destruct p as [pid|]; [destruct (ms_dk s)|]; injection H as <- _; reflexivity.
Qed.
Lemma parse_metadata_classes m l : forall d s D R, parse_metadata d s l = (D, Ok R) -> classes_le m d -> classes_le m D.
Proof.
  induction l as [|ev l IH]; intros d s D R H C; [discriminate|]. cbn [parse_metadata] in H. destruct ev as [ns n a|ns n a|ns n|[t|]|t|t| |]; try discriminate; try (eapply IH; [exact H|exact C]).
  - apply sbind_ok in H. destruct H as (d1 & s1 & M & H). eapply IH; [exact H|]. eapply meta_start_classes; eassumption.
  - apply sbind_ok in H. destruct H as (d1 & s1 & M & H). eapply IH; [exact H|]. eapply classes_same; [eapply meta_empty_kept, M|exact C].
  - pose proof (meta_end_classes m d s ns n C) as Q. destruct (meta_end d s ns n) as [d1 [s1|]]; cbn [fst] in Q; [eapply IH; eassumption|injection H as <- _; exact Q].
Qed.

(* ---------------------------------------------------------------- the body *)
Lemma store_kept d e ctx : et_annotationtype (e_type e) = None -> e_type e <> ET_Feature -> decls_kept d (fst (store_add d e ctx)).
Proof.
  intros A F. unfold store_add. apply kept_bind; [|intros d1 e1 _; destruct (st_add _ _ _ _ _); reflexivity]. destruct (e_encodable e); [|reflexivity].
  unfold encode. destruct (negb _); [reflexivity|]. unfold encode_refs. rewrite A. destruct (e_type e); try contradiction; cbn [sbind fst]; unfold encode_explicit, encode_assoc; cbn [en_dec en_proc en_subset en_class en_test];
  (destruct (e_processor e) as [[pid|]| | |]; [destruct (get_processor_key_by_id _ _)| | | |]; reflexivity).
Qed.

(* ---------------------------------------------------------------- the declarations of the properties *)
Lemma active_classes n d k : classes_le n d -> classes_le n (with_active d k).
Proof. intros C. unfold with_active. destruct (doc_active d); [|exact C]. apply (classes_procs n d k (fun x => push_if_absent _ (d_processors x))). exact C. Qed.
Lemma declare_classes n d t s : doc_ok d -> classes_le n d -> classes_le n (fst (declare d t s None None)).
Proof.
  intros W C. pose proof (declare_cases d t s None None W) as DC. destruct (declare d t s None None) as [d1 r]. cbn [fst snd] in *. inversion DC as [k dec X GD T S|k dec S X OD GD T|d2 X DD A GD X2|X F]; subst; [exact C|apply active_classes, C| |exact C].
  apply active_classes. pose proof (classes_add n d (d_new t s None None) C) as Q. rewrite A in Q. apply Q. cbn. lia.
Qed.
Lemma add_class_size dec c : (v_size VClass (fst (d_add_class dec c)) <= v_size VClass dec + 1)%N.
Proof.
  unfold d_add_class, sopt_add, v_size. cbn [v_store]. destruct (d_classes dec) as [s|].
  - destruct (ss_get_key s c); [cbn; lia|]. unfold ss_add. destruct (smap_get (st_index s) c); [cbn; lia|]. destruct (_ <=? _)%N; cbn; [rewrite app_length; cbn; lia|lia].
  - change (ss_get_key st_empty c) with (@None nat). cbn. lia.
Qed.

Lemma declares_ok l : forall sets n d, full_ok d -> affordable sets d -> incl l sets -> classes_le n d -> (n + N.of_nat (length l) <= u32_max)%N ->
  exists d', apply_declares d l = (d', Ok tt) /\ affordable sets d'.
Proof.
  induction l as [|[t s] l IH]; intros sets n d F AF I C L; cbn [apply_declares]; [eauto|].
  pose proof (fine_declare sets d t s None None (proj1 F) AF (I _ (or_introl eq_refl))) as FD. pose proof (declare_np d t s None None) as NP. pose proof (declare_nf d t s None None) as NF.
  pose proof (declare_classes n d t s (proj1 F) C) as C1. pose proof (declare_p0 normal (go_decl _ normal_ok) d t s None None) as P1.
  destruct (declare d t s None None) as [d1 r] eqn:DE. destruct FD as (Q & A1). cbn [fst snd] in *. destruct r as [dk|x| |]; [|contradiction (Q x); reflexivity|contradiction NP; reflexivity|contradiction NF; reflexivity].
  destruct (declare_result _ _ _ _ _ _ _ (proj1 F) DE) as (dec & GD & _ & _). assert (F1 : full_ok d1) by (eapply full_prims0; eassumption). cbn [sbind]. cbn [length] in L.
  assert (GO : exists d2, (match s with
                     | Some s => if String.eqb s DEFAULT_TEXT_SET then let! d2, _ := doc_add_class d1 dk "current" in (d2, Ok tt) else (d1, Ok tt)
                     | None => (d1, Ok tt) end) = (d2, Ok tt) /\ full_ok d2 /\ affordable sets d2 /\ classes_le (n + 1) d2).
  { assert (STAY : exists d2, (d1, Ok tt) = (d2, Ok tt) /\ full_ok d2 /\ affordable sets d2 /\ classes_le (n + 1) d2) by (exists d1; repeat (split; [assumption || reflexivity|]); intros k x G; specialize (C1 _ _ G); lia).
    destruct s as [s|]; [|exact STAY]. destruct (String.eqb s DEFAULT_TEXT_SET); [|exact STAY]. clear STAY.
    pose proof (doc_add_class_p0 normal d1 dk "current") as P2. unfold doc_add_class in *. rewrite GD in *. pose proof (add_class_size dec "current") as SZ. pose proof (C1 _ _ GD) as CD.
    destruct (v_add_ok VClass dec "current") as (k & EK); [cbn [v_limit]; lia|]. cbn [v_add] in EK. destruct (d_add_class dec "current") as [dec' r] eqn:DA. cbn [fst snd] in *. subst r. cbn [sbind]. eexists. split; [reflexivity|].
    split; [eapply full_prims0; eassumption|]. split.
    - eapply affordable_like; [|exact A1]. split; cbn [doc_with_decls doc_decls]; [reflexivity|apply st_set_len].
    - eapply classes_set; [|exact GD|lia]. intros j x G. specialize (C1 _ _ G). lia. }
  destruct GO as (d2 & -> & F2 & A2 & C2). cbn [sbind]. apply (IH sets (n + 1)%N); try assumption; [intros y Y; apply I; right; exact Y|lia].
Qed.
