(* Reading back what the serialiser wrote: the root tag and the metadata. *)
From Coq Require Import String List Bool Arith NArith Lia.
From Verif Require Import Base BaseFacts Types TypesFacts SpecTable Attrib Element Store StoreFacts Metadata Document Select DocOps Xml Parser Serialiser History Spec
  FrameFacts InvFacts DocFacts Examples EncodeFacts LinkFacts TreeFacts ForestFacts ParseSpec ParseFacts PropsParse PropsProv.
Import ListNotations.
Open Scope string_scope.
Open Scope list_scope.

(* ---------------------------------------------------------------- tags and the text between them *)
Section Reread.
Variable i : nat.
Definition rd (dep : nat) (acc : string) (brk : bool) (l : list wevent) : list event := w_read acc (w_indent i dep brk l).
(* the line break and blanks the writer puts before a tag *)
Definition lead (dep : nat) (brk : bool) : string := if brk && negb (Nat.eqb i 0) then (nl ++ spaces (i * dep))%string else "".

Lemma str_app_empty s : (s ++ "")%string = s.
Proof. induction s as [|a s IH]; [reflexivity|]. cbn [append]. rewrite IH. reflexivity. Qed.
Lemma w_read_pre acc dep brk l : w_read acc ((if brk && negb (Nat.eqb i 0) then [WText (nl ++ spaces (i * dep))] else []) ++ l) = w_read (acc ++ lead dep brk) l.
Proof. unfold lead. destruct (brk && negb (Nat.eqb i 0)); [reflexivity|]. rewrite str_app_empty. reflexivity. Qed.
Lemma rd_start dep acc brk n a l : rd dep acc brk (WStart n a :: l) = flush (acc ++ lead dep brk) ++ EvStart NsFolia n (read_attrs [] a) :: rd (S dep) "" true l.
Proof. unfold rd. cbn [w_indent]. rewrite w_read_pre. reflexivity. Qed.
Lemma rd_empty dep acc brk n a l : rd dep acc brk (WEmpty n a :: l) = flush (acc ++ lead dep brk) ++ EvEmpty NsFolia n (read_attrs [] a) :: rd dep "" true l.
Proof. unfold rd. cbn [w_indent]. rewrite w_read_pre. reflexivity. Qed.
Lemma rd_end dep acc brk n l : rd dep acc brk (WEnd n :: l) = flush (acc ++ lead (pred dep) brk) ++ EvEnd NsFolia n :: rd (pred dep) "" true l.
Proof. unfold rd. cbn [w_indent]. rewrite w_read_pre. reflexivity. Qed.
Lemma rd_comment dep acc brk s l : rd dep acc brk (WComment s :: l) = flush (acc ++ lead dep brk) ++ EvComment (Some (escape s)) :: rd dep "" true l.
Proof. unfold rd. cbn [w_indent]. rewrite w_read_pre. reflexivity. Qed.
Lemma rd_text dep acc brk s l : rd dep acc brk (WText s :: l) = rd dep (acc ++ s) false l.
Proof. reflexivity. Qed.
Lemma rd_nil dep acc brk : rd dep acc brk [] = flush acc.
Proof. reflexivity. Qed.

(* ---------------------------------------------------------------- the metadata loop over written events *)
Definition put_text (s : mstate) (t : option string) : mstate :=
  mkMS (ms_decls s) (ms_prov s) (ms_sub s) (ms_subtype s) t (ms_meta s) (ms_dk s) (ms_annotators s) (ms_procs s).
Lemma put_put s t u : put_text (put_text s t) u = put_text s u.
Proof. reflexivity. Qed.
Lemma put_same s : put_text s (ms_text s) = s.
Proof. destruct s; reflexivity. Qed.
Lemma flushed d s x l : exists t, parse_metadata d s (flush x ++ l) = parse_metadata d (put_text s t) l.
Proof.
  unfold flush. destruct (str_is_empty x).
  - exists (ms_text s). rewrite put_same. reflexivity.
  - exists (Some x). reflexivity.
Qed.
(* reading the written events l in state s, whatever text came before, ends with document D and events R *)
Definition reading (d : document) (s : mstate) (l : list wevent) (D : document) (R : list event) : Prop :=
  exists dep acc brk t, parse_metadata d (put_text s t) (rd dep acc brk l) = (D, Ok R).
Lemma reading_text_any d s t l D R : reading d (put_text s t) l D R -> reading d s l D R.
Proof. intros (dep & acc & brk & u & H). exists dep, acc, brk, u. exact H. Qed.
Lemma reading_start d s n a l D R : reading d s (WStart n a :: l) D R ->
  exists t d1 s1, meta_start d (put_text s t) NsFolia n (read_attrs [] a) = (d1, Ok s1) /\ reading d1 s1 l D R.
Proof.
  intros (dep & acc & brk & t & H). rewrite rd_start in H. destruct (flushed d (put_text s t) (acc ++ lead dep brk) (EvStart NsFolia n (read_attrs [] a) :: rd (S dep) "" true l)) as (u & E).
  rewrite E, put_put in H. cbn [parse_metadata] in H. apply sbind_ok in H. destruct H as (d1 & s1 & M & H). exists u, d1, s1. split; [exact M|]. exists (S dep), "", true, (ms_text s1). rewrite put_same. exact H.
Qed.
Lemma reading_empty d s n a l D R : reading d s (WEmpty n a :: l) D R ->
  exists t d1 s1, meta_empty d (put_text s t) NsFolia n (read_attrs [] a) = (d1, Ok s1) /\ reading d1 s1 l D R.
Proof.
  intros (dep & acc & brk & t & H). rewrite rd_empty in H. destruct (flushed d (put_text s t) (acc ++ lead dep brk) (EvEmpty NsFolia n (read_attrs [] a) :: rd dep "" true l)) as (u & E).
  rewrite E, put_put in H. cbn [parse_metadata] in H. apply sbind_ok in H. destruct H as (d1 & s1 & M & H). exists u, d1, s1. split; [exact M|]. exists dep, "", true, (ms_text s1). rewrite put_same. exact H.
Qed.
Lemma reading_end d s n l D R : reading d s (WEnd n :: l) D R -> exists t,
  match meta_end d (put_text s t) NsFolia n with
  | (d1, Some s1) => reading d1 s1 l D R
  | (d1, None) => D = d1 /\ exists dep, R = rd dep "" true l
  end.
Proof.
  intros (dep & acc & brk & t & H). rewrite rd_end in H. destruct (flushed d (put_text s t) (acc ++ lead (pred dep) brk) (EvEnd NsFolia n :: rd (pred dep) "" true l)) as (u & E).
  rewrite E, put_put in H. cbn [parse_metadata] in H. exists u. destruct (meta_end d (put_text s u) NsFolia n) as [d1 [s1|]].
  - exists (pred dep), "", true, (ms_text s1). rewrite put_same. exact H.
  - injection H as -> <-. split; [reflexivity|]. eauto.
Qed.
Lemma reading_text d s x l D R : reading d s (WText x :: l) D R -> reading d s l D R.
Proof. intros (dep & acc & brk & t & H). exists dep, (acc ++ x)%string, false, t. exact H. Qed.

(* ---------------------------------------------------------------- what leaves the metadata alone *)
(* only declarations, processors and the chain differ *)
Definition beside (a b : document) : Prop := b = doc_with_chain (doc_with_procs (doc_with_decls a (doc_decls b)) (doc_procs b)) (doc_chain b).
Lemma beside_refl d : beside d d.
Proof. destruct d; reflexivity. Qed.
Lemma beside_trans a b c : beside a b -> beside b c -> beside a c.
Proof. unfold beside. intros -> ->. destruct a, b, c; reflexivity. Qed.
Lemma beside_bind {A B} d (r : document * res A) (f : document -> A -> document * res B) : beside d (fst r) -> (forall d1 a, r = (d1, Ok a) -> beside d1 (fst (f d1 a))) -> beside d (fst (sbind r f)).
Proof. destruct r as [d1 [a|e| |]]; cbn; intros X F; try exact X. eapply beside_trans; [exact X|]. apply F. reflexivity. Qed.
Lemma beside_provenance d p : beside d (fst (add_provenance d p)).
Proof. unfold add_provenance. destruct (st_add _ _ _ _ _) as [s r]. destruct d; reflexivity. Qed.
Lemma beside_declaration d x : beside d (fst (add_declaration d x)).
Proof. unfold add_declaration. destruct (st_add _ _ _ _ _) as [s r]. destruct d; reflexivity. Qed.
Lemma beside_upd_decl d k f : beside d (upd_declaration d k f).
Proof. unfold upd_declaration. destruct (get_declaration d k); [destruct d; reflexivity|apply beside_refl]. Qed.
Lemma beside_upd_proc d k f : beside d (upd_processor d k f).
Proof. unfold upd_processor. destruct (get_processor d k); [destruct d; reflexivity|apply beside_refl]. Qed.
Lemma beside_attach_proc d a b : beside d (fst (attach_processor d a b)).
Proof.
  unfold attach_processor. destruct (get_processor d a); [|apply beside_refl]. destruct (get_processor d b); [|apply beside_refl]. cbn [fst].
  eapply beside_trans; [apply beside_upd_proc|apply beside_upd_proc].
Qed.
Lemma beside_sub p : forall d k, beside d (fst (add_subprocessor d k p)).
Proof.
  induction p as [p IH] using (well_founded_ind (well_founded_ltof _ proc_size)). intros d k. rewrite add_subprocessor_eq.
  apply beside_bind; [apply beside_provenance|]. intros d1 c _. apply beside_bind; [apply beside_attach_proc|]. intros d2 _ _. apply beside_bind; [|intros; apply beside_refl].
  assert (IH' : forall q, In q (pr_pending p) -> forall d k, beside d (fst (add_subprocessor d k q))).
  { intros q Q. apply IH. unfold ltof. rewrite (size_eq p). clear - Q. induction (pr_pending p) as [|x l IHl]; [destruct Q|]. change (list_sum (map proc_size (x :: l))) with (proc_size x + list_sum (map proc_size l)).
    destruct Q as [->|Q]; [lia|]. specialize (IHl Q). lia. }
  clear IH. revert d2. induction (pr_pending p) as [|q l IHl]; intros d2; cbn [add_subprocessors]; [apply beside_refl|].
  apply beside_bind; [apply IH'; left; reflexivity|]. intros d3 _ _. apply IHl. intros q' Q. apply IH'. right. exact Q.
Qed.
Lemma beside_subs l : forall d k, beside d (fst (add_subprocessors d k l)).
Proof. induction l as [|q l IH]; intros d k; cbn [add_subprocessors]; [apply beside_refl|]. apply beside_bind; [apply beside_sub|]. intros; apply IH. Qed.
Lemma beside_chain d l : beside d (doc_with_chain d l).
Proof. destruct d; reflexivity. Qed.
Lemma beside_add_processor d p : beside d (fst (add_processor d p)).
Proof.
  unfold add_processor. apply beside_bind; [apply beside_provenance|]. intros d1 c _. eapply beside_trans; [apply (beside_chain d1 (doc_chain d1 ++ [c]))|].
  apply beside_bind; [apply beside_subs|intros; apply beside_refl].
Qed.
Lemma beside_parsed_processor d st p : beside d (fst (add_parsed_processor d st p)).
Proof.
  unfold add_parsed_processor. assert (Q : forall r : document * res nat, beside d (fst r) -> beside d (fst (map_err EParse r))) by (intros [x [a|e| |]]; auto).
  apply Q. destruct st; [apply beside_add_processor|apply beside_sub].
Qed.
Lemma beside_annotators l : forall d, beside d (assign_annotators d l).
Proof.
  induction l as [|[dk pid] l IH]; intros d; cbn [assign_annotators]; [apply beside_refl|]. eapply beside_trans; [|apply IH].
  destruct (get_processor_key_by_id d pid); [apply beside_upd_decl|apply beside_refl].
Qed.
Definition quiet_name (n : string) : Prop := n <> "meta" /\ n <> "metadata" /\ n <> "submetadata".
Definition quiet (w : wevent) : Prop := match w with WStart n _ | WEmpty n _ | WEnd n => quiet_name n | WText _ => True | WComment _ => False end.
Lemma quiet_eqb n : quiet_name n -> String.eqb n "meta" = false /\ String.eqb n "metadata" = false /\ String.eqb n "submetadata" = false.
Proof. intros (A & B & C). repeat split; apply String.eqb_neq; assumption. Qed.
Lemma beside_ok {A} d (r : document * res A) d1 a : r = (d1, Ok a) -> beside d (fst r) -> beside d d1.
Proof. intros ->. auto. Qed.
Lemma quiet_start d s n a d1 s1 : quiet_name n -> meta_start d s NsFolia n a = (d1, Ok s1) -> beside d d1 /\ ms_sub s1 = ms_sub s.
Proof.
  intros Q. destruct (quiet_eqb _ Q) as (Q1 & Q2 & Q3). unfold meta_start. rewrite Q1, Q2, Q3.
  destruct (String.eqb n "annotations"); [intros H; injection H as <- <-; split; [apply beside_refl|reflexivity]|].
  destruct (String.eqb n "provenance"); [intros H; injection H as <- <-; split; [apply beside_refl|reflexivity]|].
  destruct (String.eqb n "processor" && ms_prov s).
  - intros H. apply sbind_ok in H. destruct H as (d2 & p & E & H). injection E as <- E. apply sbind_ok in H. destruct H as (d3 & k & E3 & H). injection H as <- <-. split; [|reflexivity].
    eapply beside_ok; [exact E3|apply beside_parsed_processor].
  - destruct (ms_decls s); [|discriminate]. intros H. apply sbind_ok in H. destruct H as (d2 & p & E & H). injection E as <- E. apply sbind_ok in H. destruct H as (d3 & k & E3 & H). injection H as <- <-. split; [|reflexivity].
    apply map_err_ok in E3. eapply beside_ok; [exact E3|apply beside_declaration].
Qed.
Lemma quiet_empty d s n a d1 s1 : meta_empty d s NsFolia n a = (d1, Ok s1) -> beside d d1 /\ ms_sub s1 = ms_sub s.
Proof.
  unfold meta_empty. destruct (String.eqb n "processor" && ms_prov s).
  - intros H. apply sbind_ok in H. destruct H as (d2 & p & E & H). injection E as <- E. apply sbind_ok in H. destruct H as (d3 & k & E3 & H). injection H as <- <-. split; [|reflexivity].
    eapply beside_ok; [exact E3|apply beside_parsed_processor].
  - destruct (String.eqb n "annotator" && ms_decls s).
    + intros H. apply sbind_ok in H. destruct H as (d2 & p & E & H). injection E as <- E. destruct p as [pid|]; [destruct (ms_dk s)|]; injection H as <- <-; split; try apply beside_refl; reflexivity.
    + intros H. injection H as <- <-. split; [apply beside_refl|reflexivity].
Qed.
Lemma quiet_end d s n : quiet_name n -> exists d1 s1, meta_end d s NsFolia n = (d1, Some s1) /\ beside d d1 /\ ms_sub s1 = ms_sub s.
Proof.
  intros Q. destruct (quiet_eqb _ Q) as (Q1 & Q2 & Q3). unfold meta_end. rewrite Q1, Q2, Q3.
  destruct (String.eqb n "annotations"); [do 2 eexists; split; [reflexivity|]; split; [apply beside_refl|reflexivity]|].
  destruct (String.eqb n "provenance"); [do 2 eexists; split; [reflexivity|]; split; [apply beside_annotators|reflexivity]|].
  destruct (String.eqb n "processor" && ms_prov s); [do 2 eexists; split; [reflexivity|]; split; [apply beside_refl|reflexivity]|].
  destruct (String.eqb n "annotator" && ms_decls s); [do 2 eexists; split; [reflexivity|]; split; [apply beside_refl|reflexivity]|].
  destruct (ms_decls s); do 2 eexists; (split; [reflexivity|]; split; [apply beside_refl|reflexivity]).
Qed.
Lemma quiet_block q : Forall quiet q -> forall d s l D R, reading d s (q ++ l) D R -> exists d1 s1, beside d d1 /\ ms_sub s1 = ms_sub s /\ reading d1 s1 l D R.
Proof.
  induction q as [|w q IH]; intros F d s l D R H; [exists d, s; split; [apply beside_refl|auto]|]. inversion_clear F as [|? ? QW F']. cbn [app] in H.
  destruct w as [n a|n a|n|x|x]; cbn in QW.
  - destruct (reading_start _ _ _ _ _ _ _ H) as (t & d1 & s1 & M & H1). destruct (quiet_start _ _ _ _ _ _ QW M) as (B & S1). destruct (IH F' _ _ _ _ _ H1) as (d2 & s2 & B2 & S2 & H2).
    exists d2, s2. split; [eapply beside_trans; eassumption|]. split; [rewrite S2; exact S1|exact H2].
  - destruct (reading_empty _ _ _ _ _ _ _ H) as (t & d1 & s1 & M & H1). destruct (quiet_empty _ _ _ _ _ _ M) as (B & S1). destruct (IH F' _ _ _ _ _ H1) as (d2 & s2 & B2 & S2 & H2).
    exists d2, s2. split; [eapply beside_trans; eassumption|]. split; [rewrite S2; exact S1|exact H2].
  - destruct (reading_end _ _ _ _ _ _ H) as (t & H1). destruct (quiet_end d (put_text s t) n QW) as (d1 & s1 & M & B & S1). rewrite M in H1. destruct (IH F' _ _ _ _ _ H1) as (d2 & s2 & B2 & S2 & H2).
    exists d2, s2. split; [eapply beside_trans; eassumption|]. split; [rewrite S2; exact S1|exact H2].
  - apply (IH F'). eapply reading_text, H.
  - destruct QW.
Qed.

(* ---------------------------------------------------------------- the key/value pairs *)
Definition meta_put (d : document) (k v : string) : document :=
  doc_with_metadata d (mkMeta (smap_insert k v (m_data (doc_metadata d))) (m_src (doc_metadata d)) (m_type (doc_metadata d))).
Lemma meta_open_state d s k : meta_start d s NsFolia "meta" (read_attrs [] [("id", k)]) =
  (d, Ok (mkMS (ms_decls s) (ms_prov s) (ms_sub s) (ms_subtype s) None (Some k) (ms_dk s) (ms_annotators s) (ms_procs s))).
Proof. reflexivity. Qed.
Lemma reading_meta d s k v l D R : ms_sub s = None -> v <> "" -> reading d s (w_meta (k, v) ++ l) D R ->
  exists s1, ms_sub s1 = None /\ ms_decls s1 = ms_decls s /\ ms_prov s1 = ms_prov s /\ reading (meta_put d k v) s1 l D R.
Proof.
  intros NS NV (dep & acc & brk & t & H). cbn [w_meta fst snd app] in H. rewrite rd_start in H.
  match type of H with parse_metadata _ _ (flush ?x ++ ?l) = _ => destruct (flushed d (put_text s t) x l) as (u & E) end. rewrite E, put_put in H. clear E.
  cbn [parse_metadata] in H. rewrite meta_open_state in H. cbn [sbind] in H. rewrite rd_text, rd_end in H.
  replace (flush (("" ++ v) ++ lead (pred (S dep)) false)) with [EvText (Some v)] in H.
  2:{ unfold flush, lead. cbn [andb append]. rewrite str_app_empty. destruct v; [congruence|reflexivity]. }
  cbn [app parse_metadata ms_decls ms_prov ms_sub ms_subtype ms_text ms_meta ms_dk ms_annotators ms_procs put_text] in H.
  match type of H with context [meta_end d ?s1 NsFolia "meta"] => set (s2 := s1) in H end.
  assert (E : meta_end d s2 NsFolia "meta" = (meta_put d k v, Some s2)).
  { unfold meta_end, s2. cbn [String.eqb Ascii.eqb Bool.eqb andb]. unfold meta_close. cbn [ms_text ms_meta ms_sub]. rewrite NS. reflexivity. }
  rewrite E in H. unfold wnl in H. rewrite rd_text in H. exists s2. repeat (split; [reflexivity || exact NS|]).
  exists (pred (S dep)), ("" ++ nl)%string, false, (ms_text s2). rewrite put_same. exact H.
Qed.
Fixpoint meta_puts (d : document) (l : list (string * string)) : document :=
  match l with [] => d | (k, v) :: r => meta_puts (meta_put d k v) r end.
Lemma reading_metas m : (forall k v, In (k, v) m -> v <> "") -> forall d s l D R, ms_sub s = None -> reading d s (flat_map w_meta m ++ l) D R ->
  exists s1, ms_sub s1 = None /\ ms_decls s1 = ms_decls s /\ ms_prov s1 = ms_prov s /\ reading (meta_puts d m) s1 l D R.
Proof.
  induction m as [|[k v] m IH]; intros NE d s l D R NS H; [exists s; auto|]. cbn [flat_map] in H. rewrite <- app_assoc in H.
  destruct (reading_meta _ _ _ _ _ _ _ NS (NE _ _ (or_introl eq_refl)) H) as (s1 & S1 & D1 & P1 & H1).
  destruct (IH (fun k v i => NE k v (or_intror i)) _ _ _ _ _ S1 H1) as (s2 & S2 & D2 & P2 & H2). exists s2. split; [exact S2|]. split; [congruence|]. split; [congruence|exact H2].
Qed.
End Reread.
Lemma meta_puts_rest m : forall d, m_src (doc_metadata (meta_puts d m)) = m_src (doc_metadata d) /\ m_type (doc_metadata (meta_puts d m)) = m_type (doc_metadata d) /\
  meta_puts d m = doc_with_metadata d (doc_metadata (meta_puts d m)).
Proof.
  induction m as [|[k v] m IH]; intros d; cbn [meta_puts]; [repeat split; destruct d; reflexivity|]. destruct (IH (meta_put d k v)) as (A & B & C). split; [exact A|]. split; [exact B|].
  rewrite C. destruct d; reflexivity.
Qed.
Lemma smap_get_none {V} (m : smap V) k : ~ In k (map fst m) -> smap_get m k = None.
Proof.
  induction m as [|[k' v] m IH]; intros N; [reflexivity|]. cbn in *. destruct (String.eqb_spec k k') as [E|E]; [exfalso; auto|]. apply IH. auto.
Qed.
Lemma meta_puts_get m : NoDup (map fst m) -> forall d k, smap_get (m_data (doc_metadata (meta_puts d m))) k = match smap_get m k with Some v => Some v | None => smap_get (m_data (doc_metadata d)) k end.
Proof.
  induction m as [|[k0 v0] m IH]; intros ND d k; [reflexivity|]. cbn [meta_puts]. inversion_clear ND as [|? ? NI ND']. rewrite (IH ND'). cbn [smap_get].
  destruct (String.eqb_spec k k0) as [->|E].
  - rewrite smap_get_none by exact NI. cbn. apply smap_get_insert_same.
  - destruct (smap_get m k); [reflexivity|]. cbn. apply smap_get_insert_other, E.
Qed.

Lemma smap_insert_nodup {V} (m : smap V) k v : NoDup (map fst m) -> NoDup (map fst (smap_insert k v m)).
Proof.
  intros ND. unfold smap_insert. cbn [map fst]. constructor.
  - intros I'. apply in_map_iff in I'. destruct I' as ([k1 v1] & E & I'). apply filter_In in I'. cbn [fst] in *. subst k1. rewrite String.eqb_refl in I'. destruct I' as (_ & Q). discriminate.
  - induction m as [|[k1 v1] m IH]; [constructor|]. inversion_clear ND as [|? ? NI ND']. cbn [filter fst]. destruct (negb (String.eqb k k1)); [|apply IH, ND']. cbn [map fst]. constructor; [|apply IH, ND'].
    intros I'. apply NI. apply in_map_iff in I'. destruct I' as (x & E & I'). apply filter_In in I'. apply in_map_iff. exists x. split; [exact E|apply I'].
Qed.
Lemma meta_puts_nodup m : forall d, NoDup (map fst (m_data (doc_metadata d))) -> NoDup (map fst (m_data (doc_metadata (meta_puts d m)))).
Proof. induction m as [|[k v] m IH]; intros d ND; cbn [meta_puts]; [exact ND|]. apply IH. cbn. apply (smap_insert_nodup (m_data (doc_metadata d)) k v), ND. Qed.

(* ---------------------------------------------------------------- what is written as metadata *)
Lemma w_annotators_quiet d l : forall x, w_annotators d l = Ok x -> Forall quiet x.
Proof.
  induction l as [|k l IH]; cbn; intros x H; [injection H as <-; constructor|]. destruct (get_processor d k); [|discriminate]. apply rbind_ok in H. destruct H as (y & Y & H). injection H as <-.
  constructor; [cbn; repeat split; discriminate|]. apply IH, Y.
Qed.
Lemma annotation_quiet t : quiet_name (at_as_str t ++ "-annotation")%string.
Proof. destruct t; repeat split; discriminate. Qed.
Lemma w_declaration_quiet d dec x : w_declaration d dec = Ok x -> Forall quiet x.
Proof.
  unfold w_declaration. intros H. assert (K : forall y tag attrs, quiet_name tag -> Forall quiet y -> Forall quiet (WStart tag attrs :: y ++ [WEnd tag; wnl])).
  { intros y tag attrs T Y. constructor; [exact T|]. apply Forall_app. split; [exact Y|]. repeat constructor; apply T. }
  destruct (d_processors dec) as [|p ps].
  - injection H as <-. repeat constructor; apply annotation_quiet.
  - apply rbind_ok in H. destruct H as (y & Y & H). injection H as <-. apply K; [apply annotation_quiet|]. eapply w_annotators_quiet, Y.
Qed.
Lemma w_declaration_list_quiet d l : forall x, w_declaration_list d l = Ok x -> Forall quiet x.
Proof.
  induction l as [|[dec|] l IH]; cbn [w_declaration_list]; intros x H; [injection H as <-; constructor| |apply IH, H].
  apply rbind_ok in H. destruct H as (y & Y & H). apply rbind_ok in H. destruct H as (z & Z & H). injection H as <-. apply Forall_app. split; [eapply w_declaration_quiet, Y|apply IH, Z].
Qed.
Lemma w_each_quiet (f : nat -> res (list wevent)) l : (forall k x, f k = Ok x -> Forall quiet x) -> forall x, w_each f l = Ok x -> Forall quiet x.
Proof.
  intros F. induction l as [|k l IH]; cbn [w_each]; intros x H; [injection H as <-; constructor|].
  apply rbind_ok in H. destruct H as (y & Y & H). apply rbind_ok in H. destruct H as (z & Z & H). injection H as <-. apply Forall_app. split; [eapply F, Y|apply IH, Z].
Qed.
Lemma w_processor_quiet fuel d : forall k x, w_processor fuel d k = Ok x -> Forall quiet x.
Proof.
  assert (QP : quiet_name "processor") by (repeat split; discriminate).
  induction fuel as [|f IH]; intros k x; cbn [w_processor]; [discriminate|]. destruct (get_processor d k) as [p|]; [|intros H; injection H as <-; constructor].
  destruct (pr_processors p) as [|c l].
  - intros H. injection H as <-. repeat constructor; apply QP.
  - intros H. apply rbind_ok in H. destruct H as (y & Y & H). injection H as <-. constructor; [exact QP|]. apply Forall_app. split; [eapply w_each_quiet; [exact IH|exact Y]|]. repeat constructor; apply QP.
Qed.
Lemma metadata_start_state d s ty src : exists s', meta_start d s NsFolia "metadata" (read_attrs [] (oattr "type" ty ++ oattr "src" src)) =
  (doc_with_metadata d (mkMeta (m_data (doc_metadata d)) (match src with Some x => Some x | None => m_src (doc_metadata d) end) (match ty with Some x => Some x | None => m_type (doc_metadata d) end)), Ok s') /\ s' = s.
Proof. exists s. split; [|reflexivity]. destruct ty, src; cbn; destruct (doc_metadata d); reflexivity. Qed.

(* Reading the written metadata into a document without metadata gives the metadata written, if no value is empty. *)
Lemma metadata_read i fuel d m d1 s rest D R : w_metadata fuel d = Ok m -> ms_sub s = None -> doc_metadata d1 = meta_default ->
  NoDup (map fst (m_data (doc_metadata d))) -> (forall k v, In (k, v) (m_data (doc_metadata d)) -> v <> "") -> (forall id x, In (id, x) (doc_submetadata d) -> m_data x = []) ->
  reading i d1 s (m ++ rest) D R ->
  (m_type (doc_metadata D) = m_type (doc_metadata d) /\ m_src (doc_metadata D) = m_src (doc_metadata d) /\
   forall k, smap_get (m_data (doc_metadata D)) k = smap_get (m_data (doc_metadata d)) k) /\
  doc_id D = doc_id d1 /\ doc_version D = doc_version d1 /\ NoDup (map fst (m_data (doc_metadata D))) /\ doc_submetadata D = doc_submetadata d1 /\ exists dep, R = rd i dep "" true (wnl :: rest).
Proof.
  intros W NS DM ND NE SUB H. unfold w_metadata in W. apply rbind_ok in W. destruct W as (decls & WD & W). apply rbind_ok in W. destruct W as (prov & WP & W). injection W as <-.
  cbn [app] in H. destruct (reading_start _ _ _ _ _ _ _ _ H) as (t & d2 & s2 & M & H2). clear H.
  destruct (metadata_start_state d1 (put_text s t) (m_type (doc_metadata d)) (m_src (doc_metadata d))) as (s' & E & ES). rewrite E in M. injection M as <- <-. clear E. rewrite ES in H2.
  apply reading_text in H2. rewrite <- !app_assoc in H2.
  assert (QD : Forall quiet decls).
  { unfold w_declarations in WD. apply rbind_ok in WD. destruct WD as (x & X & WD). injection WD as <-. constructor; [repeat split; discriminate|]. constructor; [exact I|]. apply Forall_app. split; [eapply w_declaration_list_quiet, X|]. repeat constructor; discriminate. }
  assert (QP : Forall quiet prov).
  { unfold w_provenance in WP. apply rbind_ok in WP. destruct WP as (x & X & WP). injection WP as <-. constructor; [repeat split; discriminate|]. constructor; [exact I|]. apply Forall_app. split; [eapply w_each_quiet; [apply w_processor_quiet|exact X]|]. repeat constructor; discriminate. }
  destruct (quiet_block _ _ QD _ _ _ _ _ H2) as (d3 & s3 & B3 & S3 & H3). destruct (quiet_block _ _ QP _ _ _ _ _ H3) as (d4 & s4 & B4 & S4 & H4).
  assert (S4' : ms_sub s4 = None) by (rewrite S4, S3; exact NS).
  destruct (reading_metas i _ NE _ _ _ _ _ S4' H4) as (s5 & S5 & _ & _ & H5).
  replace (flat_map (fun p => flat_map w_meta (m_data (snd p))) (doc_submetadata d)) with (@nil wevent) in H5.
  2:{ clear - SUB. induction (doc_submetadata d) as [|[id x] l IH]; [reflexivity|]. cbn [flat_map snd]. rewrite (SUB id x) by (left; reflexivity). cbn [flat_map app]. apply IH. intros id' x' I'. apply (SUB id' x'). right. exact I'. }
  cbn [app] in H5. apply reading_end in H5. destruct H5 as (u & -> & dep & ->).
  pose proof (beside_trans _ _ _ B3 B4) as B. rewrite B. destruct (meta_puts_rest (m_data (doc_metadata d)) (doc_with_chain (doc_with_procs (doc_with_decls
     (doc_with_metadata d1 (mkMeta (m_data (doc_metadata d1)) (match m_src (doc_metadata d) with Some x => Some x | None => m_src (doc_metadata d1) end) (match m_type (doc_metadata d) with Some x => Some x | None => m_type (doc_metadata d1) end)))
     (doc_decls d4)) (doc_procs d4)) (doc_chain d4))) as (A1 & A2 & A3).
  split; [|split; [|split; [|split; [|split; [|eauto]]]]].
  - split; [|split].
    + rewrite A2. cbn. rewrite DM. destruct (m_type (doc_metadata d)); reflexivity.
    + rewrite A1. cbn. rewrite DM. destruct (m_src (doc_metadata d)); reflexivity.
    + intros k. rewrite meta_puts_get by exact ND. cbn. rewrite DM. destruct (smap_get (m_data (doc_metadata d)) k); reflexivity.
  - rewrite A3. reflexivity.
  - rewrite A3. reflexivity.
  - apply meta_puts_nodup. cbn. rewrite DM. constructor.
  - rewrite A3. reflexivity.
Qed.

(* ---------------------------------------------------------------- the document around it *)
Lemma aside_step fuel O d st ev : aside d (fst (elements_step fuel O d st ev)).
Proof.
  assert (C : forall l d k, aside d (fst (add_attr_children d k l))).
  { clear. induction l as [|c l IH]; intros d k; cbn [add_attr_children]; [apply aside_refl|]. apply aside_bind; [apply aside_store|]. intros d1 ck _. apply aside_bind; [apply aside_attach|]. intros; apply IH. }
  assert (ME : forall {A} (r : document * res A), aside d (fst r) -> aside d (fst (map_err EParse r))) by (intros A [x [a|e| |]]; auto).
  destruct ev as [[| |] n a|[| |] n a|[| |] n|[s|]|[s|]|[s|]| |]; cbn [elements_step]; try apply aside_refl; try apply aside_push.
  - apply aside_pure. intros x _. apply aside_bind; [apply ME, aside_store|]. intros d1 k _. apply aside_bind; [apply C|]. intros; apply aside_refl.
  - apply aside_pure. intros x _. apply aside_bind; [apply ME, aside_store|]. intros d1 k _. apply aside_bind; [destruct st; [apply aside_refl|apply aside_attach]|]. intros d2 u _. apply aside_bind; [apply C|].
    intros d3 v _. apply aside_bind; [apply aside_post|intros; apply aside_refl].
  - destruct st as [|k [|top st]]; try apply aside_refl. apply aside_bind; [apply aside_post|]. intros d1 u _. destruct (get_elementdata d1 k) as [e|]; [|apply aside_refl].
    apply aside_pure. intros et _. destruct (et_eqb (e_type e) et); [|apply aside_refl]. apply aside_bind; [apply aside_attach|intros; apply aside_refl].
Qed.
Lemma aside_loop fuel O l : forall d st, aside d (fst (parse_elements_loop fuel O d st l)).
Proof.
  induction l as [|ev l IH]; intros d st; cbn [parse_elements_loop]; [apply aside_refl|]. apply aside_bind; [apply aside_step|]. intros d1 [st1|] _; [apply IH|apply aside_refl].
Qed.
Lemma aside_elements fuel O d l : aside d (fst (parse_elements fuel O d l)).
Proof. unfold parse_elements. destruct (st_items (doc_elements d)); [apply aside_refl|apply aside_loop]. Qed.
Lemma aside_meta a b : aside a b -> doc_metadata b = doc_metadata a /\ doc_id b = doc_id a /\ doc_version b = doc_version a /\ doc_procs b = doc_procs a /\ doc_chain b = doc_chain a /\ doc_submetadata b = doc_submetadata a.
Proof. intros ->. repeat split. Qed.
Lemma beside_meta a b : beside a b -> doc_metadata b = doc_metadata a /\ doc_id b = doc_id a /\ doc_version b = doc_version a /\ doc_submetadata b = doc_submetadata a.
Proof. intros ->. repeat split. Qed.

(* loading what was written: the root tag, the metadata, the body *)
Record loading (i : nat) (fuel : nat) (O : oracle) (p : docprops) (id : string) (rest : list wevent) (d' : document) (d1 d2 : document) (r2 : list event) : Prop := {
  ld_root : d1 = doc_with_version (doc_with_id (blank_doc p) id) FOLIAVERSION;
  ld_read : reading i d1 ms_init rest d2 r2;
  ld_body : exists b r3 d3 d4 k, parse_body O r2 = Ok (Some b, r3) /\ store_add d2 b None = (d3, Ok k) /\ apply_properties d3 p = (d4, Ok tt) /\ parse_elements fuel O d4 r3 = (d', Ok tt) }.
Lemma load_parts i fuel O p id rest d' :
  parse_document fuel O p (reread i (WStart "FoLiA" [("xmlns", NSFOLIA); ("xmlns:xlink", NSXLINK); ("xml:id", id); ("version", FOLIAVERSION); ("generator", GENERATOR)] :: wnl :: rest)) = Ok d' ->
  exists d1 d2 r2, loading i fuel O p id rest d' d1 d2 r2.
Proof.
  intros H. unfold parse_document in H. apply rbind_ok in H. destruct H as ([d1 l1] & R & H).
  unfold reread in R. change (w_read "" (w_indent i 0 false ?l)) with (rd i 0 "" false l) in R. rewrite rd_start in R. unfold lead in R. cbn [andb append flush str_is_empty app parse_root] in R.
  cbn [String.eqb Ascii.eqb Bool.eqb] in R. apply rbind_ok in R. destruct R as (d1' & RA & R). injection R as <- <-.
  cbn [read_attrs existsb String.eqb Ascii.eqb Bool.eqb orb root_attrs xa_key xa_val expect rbind] in RA. injection RA as <-.
  match type of H with context [parse_metadata ?x ms_init _] => set (d1 := x) in H end.
  destruct (parse_metadata d1 ms_init _) as [d2 r] eqn:M. apply rbind_ok in H. destruct H as (r2 & -> & H).
  apply rbind_ok in H. destruct H as ([[b|] r3] & B & H); [|discriminate].
  match type of H with (let (_, _) := ?x in _) = _ => destruct x as [d5 r5] eqn:E end.
  apply rbind_ok in H. destruct H as (u & -> & H). injection H as <-. destruct u.
  apply sbind_ok in E. destruct E as (d3 & k & E3 & E). apply map_err_ok in E3. apply sbind_ok in E. destruct E as (d4 & u & E4 & E). apply map_err_ok in E4. destruct u.
  exists d1, d2, r2. split; [reflexivity| |].
  - unfold wnl in M. rewrite rd_text in M. exists 1, ("" ++ nl)%string, false, (ms_text ms_init). rewrite put_same. exact M.
  - exists b, r3, d3, d4, k. auto.
Qed.
Lemma apply_meta d p d' u : apply_properties d p = (d', u) -> doc_metadata d' = doc_metadata d /\ doc_id d' = doc_id d /\ doc_version d' = doc_version d /\ doc_submetadata d' = doc_submetadata d.
Proof.
  intros H. assert (E : d' = fst (apply_properties d p)) by (rewrite H; reflexivity). rewrite E. clear. unfold apply_properties.
  set (r := match dp_processor p with Some _ => _ | None => _ end). assert (Q : doc_metadata (fst r) = doc_metadata d /\ doc_id (fst r) = doc_id d /\ doc_version (fst r) = doc_version d /\ doc_submetadata (fst r) = doc_submetadata d).
  { unfold r. destruct (dp_processor p) as [pr|]; [|auto]. pose proof (beside_meta _ _ (beside_add_processor d pr)) as B. destruct (add_processor d pr) as [d1 [k|e| |]]; exact B. }
  destruct r as [d1 [k|e| |]]; try exact Q. cbn [sbind]. cbn [fst] in Q. destruct (aside_meta _ _ (aside_declares (dp_declare p) d1)) as (A & B & C & _ & _ & F). rewrite A, B, C, F. exact Q.
Qed.
Lemma loaded_metadata i fuel O p id rest d' d1 d2 r2 : loading i fuel O p id rest d' d1 d2 r2 ->
  doc_metadata d' = doc_metadata d2 /\ doc_id d' = doc_id d2 /\ doc_version d' = doc_version d2 /\ doc_submetadata d' = doc_submetadata d2.
Proof.
  intros [_ _ (b & r3 & d3 & d4 & k & _ & S & A & P)].
  assert (A3 : aside d2 d3) by (pose proof (aside_store d2 b None) as Q; rewrite S in Q; exact Q). assert (A5 : aside d4 d') by (pose proof (aside_elements fuel O d4 r3) as Q; rewrite P in Q; exact Q).
  destruct (aside_meta _ _ A3) as (X1 & X2 & X3 & _ & _ & X4). destruct (aside_meta _ _ A5) as (Y1 & Y2 & Y3 & _ & _ & Y4). destruct (apply_meta _ _ _ _ A) as (Z1 & Z2 & Z3 & Z4).
  repeat split; congruence.
Qed.
