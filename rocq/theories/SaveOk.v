(* Writing a document succeeds, and so does reading back the metadata that was written. *)
From Coq Require Import String Ascii List Bool Arith NArith Lia.
From Verif Require Import Base BaseFacts Types TypesFacts SpecTable Attrib AttribFacts Element Store StoreFacts Metadata Document Select DocOps Xml Parser Serialiser History Spec
  FrameFacts InvFacts DocFacts StoreThms Examples EncodeFacts LinkFacts TreeFacts ForestFacts ParseSpec ParseFacts PropsParse PropsProv RoundFacts RoundProv SaveSpec.
Import ListNotations.
Open Scope string_scope.
Open Scope list_scope.

(* ---------------------------------------------------------------- the metadata can be written *)
Lemma w_procs_ok d ks l : listed d ks l -> exists n x, forall fuel, n <= fuel -> w_each (w_processor fuel d) ks = Ok x.
Proof.
  induction 1 as [|k ks p l1 l2 G L1 (n1 & x1 & H1) L2 (n2 & x2 & H2)]; [exists 0, []; reflexivity|].
  assert (K : exists x, forall fuel, S n1 <= fuel -> w_processor fuel d k = Ok x).
  { destruct (pr_processors p) as [|c cs] eqn:PP.
    - eexists. intros [|fuel] F; [lia|]. rewrite (w_processor_some _ _ _ _ G), PP. reflexivity.
    - eexists. intros [|fuel] F; [lia|]. rewrite (w_processor_some _ _ _ _ G), PP. rewrite (H1 fuel) by lia. reflexivity. }
  destruct K as (x & K). exists (max (S n1) n2), (x ++ x2). intros fuel F. cbn [w_each]. rewrite K, H2 by lia. reflexivity.
Qed.
Lemma w_annotators_ok d ps : (forall k, In k ps -> get_processor d k <> None) -> exists x, w_annotators d ps = Ok x.
Proof.
  induction ps as [|k ps IH]; intros H; [exists []; reflexivity|]. cbn [w_annotators]. destruct (get_processor d k) as [p|] eqn:G; [|destruct (H k (or_introl eq_refl) G)].
  destruct IH as (x & ->); [intros j J; apply H; right; exact J|]. eexists. reflexivity.
Qed.
Lemma w_declarations_ok d items : (forall x k, In (Some x) items -> In k (d_processors x) -> get_processor d k <> None) -> exists w, w_declaration_list d items = Ok w.
Proof.
  induction items as [|[x|] items IH]; intros H; [exists []; reflexivity| |]; destruct IH as (w & W); [intros y k I'; apply H; right; exact I'| |intros y k I'; apply H; right; exact I'|exists w; exact W].
  cbn [w_declaration_list]. rewrite W. assert (K : exists v, w_declaration d x = Ok v); [|destruct K as (v & ->); eexists; reflexivity].
  unfold w_declaration. destruct (d_processors x) as [|k ks] eqn:P; [eauto|]. destruct (w_annotators_ok d (k :: ks)) as (v & ->); [|eexists; reflexivity]. intros j J. apply (H x j (or_introl eq_refl)). rewrite P. exact J.
Qed.
Lemma w_metadata_ok d l : listed d (doc_chain d) l -> (forall k x p, get_declaration d k = Some x -> In p (d_processors x) -> get_processor d p <> None) ->
  exists n m, forall fuel, n <= fuel -> w_metadata fuel d = Ok m.
Proof.
  intros L H. destruct (w_procs_ok _ _ _ L) as (n & x & X). destruct (w_declarations_ok d (st_items (doc_decls d))) as (w & W).
  - intros y k I'. apply In_nth_error in I'. destruct I' as (j & J). apply (H j). unfold get_declaration, st_get. rewrite J. reflexivity.
  - exists n. eexists. intros fuel F. unfold w_metadata, w_declarations, w_provenance. rewrite W, (X fuel F). cbn [rbind]. reflexivity.
Qed.

(* ---------------------------------------------------------------- reading written metadata, forwards *)
Section Goes.
Variable i : nat.
(* reading the written events x in state s, whatever text came before, ends in a state where Q holds *)
Definition goes (d : document) (s : mstate) (x : list wevent) (Q : document -> mstate -> Prop) : Prop := forall dep acc brk t rest, exists d' s' dep' acc' brk',
  Q d' s' /\ parse_metadata d (put_text s t) (rd i dep acc brk (x ++ rest)) = parse_metadata d' s' (rd i dep' acc' brk' rest).
Lemma goes_nil d s (Q : document -> mstate -> Prop) : (forall t, Q d (put_text s t)) -> goes d s [] Q.
Proof. intros H dep acc brk t rest. exists d, (put_text s t), dep, acc, brk. split; [apply H|reflexivity]. Qed.
Lemma goes_app d s x y P Q : goes d s x P -> (forall d1 s1, P d1 s1 -> goes d1 s1 y Q) -> goes d s (x ++ y) Q.
Proof.
  intros A B dep acc brk t rest. rewrite <- app_assoc. destruct (A dep acc brk t (y ++ rest)) as (d1 & s1 & dep1 & acc1 & brk1 & P1 & ->).
  destruct (B _ _ P1 dep1 acc1 brk1 (ms_text s1) rest) as (d2 & s2 & dep2 & acc2 & brk2 & Q2 & E). rewrite put_same in E. rewrite E. eauto 10.
Qed.
Lemma goes_text d s y x Q : goes d s x Q -> goes d s (WText y :: x) Q.
Proof. intros H dep acc brk t rest. cbn [app]. rewrite rd_text. apply H. Qed.
Lemma goes_start d s n a x Q : (forall t, exists d1 s1, meta_start d (put_text s t) NsFolia n (read_attrs [] a) = (d1, Ok s1) /\ goes d1 s1 x Q) -> goes d s (WStart n a :: x) Q.
Proof.
  intros H dep acc brk t rest. cbn [app]. rewrite rd_start. destruct (flushed d (put_text s t) (acc ++ lead i dep brk) (EvStart NsFolia n (read_attrs [] a) :: rd i (S dep) "" true (x ++ rest))) as (u & ->). rewrite put_put.
  destruct (H u) as (d1 & s1 & M & G). cbn [parse_metadata]. rewrite M. cbn [sbind]. rewrite <- (put_same s1). apply G.
Qed.
Lemma goes_empty d s n a x Q : (forall t, exists d1 s1, meta_empty d (put_text s t) NsFolia n (read_attrs [] a) = (d1, Ok s1) /\ goes d1 s1 x Q) -> goes d s (WEmpty n a :: x) Q.
Proof.
  intros H dep acc brk t rest. cbn [app]. rewrite rd_empty. destruct (flushed d (put_text s t) (acc ++ lead i dep brk) (EvEmpty NsFolia n (read_attrs [] a) :: rd i dep "" true (x ++ rest))) as (u & ->). rewrite put_put.
  destruct (H u) as (d1 & s1 & M & G). cbn [parse_metadata]. rewrite M. cbn [sbind]. rewrite <- (put_same s1). apply G.
Qed.
Lemma goes_end d s n x Q : (forall t, exists d1 s1, meta_end d (put_text s t) NsFolia n = (d1, Some s1) /\ goes d1 s1 x Q) -> goes d s (WEnd n :: x) Q.
Proof.
  intros H dep acc brk t rest. cbn [app]. rewrite rd_end. destruct (flushed d (put_text s t) (acc ++ lead i (pred dep) brk) (EvEnd NsFolia n :: rd i (pred dep) "" true (x ++ rest))) as (u & ->). rewrite put_put.
  destruct (H u) as (d1 & s1 & M & G). cbn [parse_metadata]. rewrite M. rewrite <- (put_same s1). apply G.
Qed.
Lemma goes_weaken d s x (P Q : document -> mstate -> Prop) : goes d s x P -> (forall d1 s1, P d1 s1 -> Q d1 s1) -> goes d s x Q.
Proof. intros A B dep acc brk t rest. destruct (A dep acc brk t rest) as (d1 & s1 & dep1 & acc1 & brk1 & P1 & E). eauto 10. Qed.

(* ---------------------------------------------------------------- processors *)
Lemma copy_parses p : pr_begin p = None -> pr_end p = None -> parse_processor (read_attrs [] (proc_attrs p)) = Ok (copy_of p []).
Proof.
  intros B E. rewrite read_attrs_plain by (auto using proc_attrs_nodup). unfold parse_processor, proc_attrs, copy_of. rewrite B, E.
  destruct p as [id n ty ve fv dv cm ho us b e ps sr fo re pa md ke pe]. cbn [pr_id pr_name pr_type pr_version pr_folia_version pr_document_version pr_command pr_host pr_user pr_src pr_format pr_resourcelink option_map oattr app].
  destruct ty; cbn [pt_as_str map plain_attr fst snd]; cbn; destruct ve, fv; cbn; destruct dv, cm; cbn; destruct ho, us; cbn; destruct sr, fo, re; reflexivity.
Qed.
Definition top_ok (d : document) (st : list nat) : Prop := match st with [] => True | k :: _ => get_processor d k <> None end.
(* the document grew by n processors, with IDs among l *)
Record grown (d d' : document) (n : nat) (l : list string) : Prop := {
  gw_len : procs_len d' = procs_len d + n;
  gw_new : forall id, get_processor_key_by_id d' id <> None -> get_processor_key_by_id d id <> None \/ In id l;
  gw_old : forall j, get_processor d j <> None -> get_processor d' j <> None;
  gw_decls : doc_decls d' = doc_decls d }.
Lemma grown_refl d : grown d d 0 [].
Proof. split; auto. Qed.
Lemma grown_trans a b c n m l k : grown a b n l -> grown b c m k -> grown a c (n + m) (l ++ k).
Proof.
  intros [A1 A2 A3 A4] [B1 B2 B3 B4]. split; [lia| |auto|congruence]. intros id H. rewrite in_app_iff. destruct (B2 id H) as [Q|Q]; [destruct (A2 id Q)|]; auto.
Qed.
Lemma add_one_ok d st p : get_processor_key_by_id d (pr_id p) = None -> (N.of_nat (procs_len d + 1) <= max_proc + 1)%N -> top_ok d st ->
  exists d1 k, add_parsed_processor d st (copy_of p []) = (d1, Ok k) /\ get_processor d1 k <> None /\ grown d d1 1 [pr_id p].
Proof.
  intros U R T. assert (BN : brand_new (copy_of p [])) by (constructor; [split; reflexivity|intros c []]).
  assert (ND : NoDup (proc_ids (copy_of p []))) by (repeat constructor; intros []). assert (UN : forall id, In id (proc_ids (copy_of p [])) -> get_processor_key_by_id d id = None) by (intros id [<-|[]]; exact U).
  unfold add_parsed_processor. destruct st as [|top st].
  - destruct (C59_add_processor_partial d (copy_of p []) BN ND UN) as (S & F). destruct (S R) as (d1 & k & E). destruct (F _ _ E) as (_ & M & G & _ & NW & L & OP). exists d1, k. rewrite E. split; [reflexivity|]. split.
    + inversion M as [? ? ? q Q]; subst. congruence.
    + split; [exact L|exact NW|intros j J; destruct (get_processor d j) as [q|] eqn:Q; [rewrite (G _ _ Q); discriminate|congruence]|]. rewrite OP. reflexivity.
  - cbn in T. destruct (get_processor d top) as [q|] eqn:Q; [|congruence]. destruct (all_sub_added (copy_of p []) d top q BN ND UN Q) as (S & F). destruct S as (d1 & E); [right; change (proc_size (copy_of p [])) with 1; lia|]. destruct (F _ _ E) as (_ & [O1 L1 G1 _ N1] & M).
    exists d1, (procs_len d). rewrite E. split; [reflexivity|]. split.
    + inversion M as [? ? ? q' LE Q']; subst. congruence.
    + split; [change (proc_size (copy_of p [])) with 1 in L1; lia|exact N1|intros j J; destruct (get_processor d j) as [q'|] eqn:Q'; [rewrite (G1 _ _ Q'); discriminate|congruence]|]. rewrite O1. reflexivity.
Qed.
Lemma processor_starts d s p : ms_prov s = true -> pr_begin p = None -> pr_end p = None -> get_processor_key_by_id d (pr_id p) = None -> (N.of_nat (procs_len d + 1) <= max_proc + 1)%N -> top_ok d (ms_procs s) ->
  exists d1 k, get_processor d1 k <> None /\ grown d d1 1 [pr_id p] /\ meta_start d s NsFolia "processor" (read_attrs [] (proc_attrs p)) = (d1, Ok (with_procs s (k :: ms_procs s))) /\
    meta_empty d s NsFolia "processor" (read_attrs [] (proc_attrs p)) = (d1, Ok s).
Proof.
  intros PR B E U R T. destruct (add_one_ok d (ms_procs s) p U R T) as (d1 & k & A & G & W). exists d1, k. split; [exact G|]. split; [exact W|].
  unfold meta_start, meta_empty. cbn [String.eqb Ascii.eqb Bool.eqb]. rewrite PR. cbn [andb]. rewrite (copy_parses p B E). cbn [parse_err sbind]. rewrite A. cbn [sbind]. unfold with_procs. rewrite PR. split; reflexivity.
Qed.
Lemma procs_goes d fuel : forall ks lst x, listed d ks lst -> w_each (w_processor fuel d) ks = Ok x -> undated d lst -> NoDup (map (pid d) lst) -> forall d1 s, ms_prov s = true ->
  unused d1 (map (pid d) lst) -> (N.of_nat (procs_len d1 + length lst) <= max_proc + 1)%N -> top_ok d1 (ms_procs s) ->
  goes d1 s x (fun d2 s2 => (exists t, s2 = put_text s t) /\ grown d1 d2 (length lst) (map (pid d) lst)).
Proof.
  induction fuel as [|fuel IHF]; intros ks lst x LS.
  - destruct LS; cbn; [intros H; injection H as <-|discriminate]. intros _ _ d1 s PR UN R T. apply goes_nil. intros t. split; [eauto|apply grown_refl].
  - revert x. induction LS as [|k ks p l1 l2 G L1 _ L2 IH2]; intros x.
    + cbn. intros H; injection H as <-. intros _ _ d1 s PR UN R T. apply goes_nil. intros t. split; [eauto|apply grown_refl].
    + cbn [w_each]. rewrite (w_processor_some _ _ _ _ G). intros W. apply rbind_ok in W. destruct W as (x1 & W1 & W). apply rbind_ok in W. destruct W as (x2 & W2 & W). injection W as <-.
      intros UD ND d1 s PR UN R T. cbn [map] in ND, UN. rewrite map_app in ND, UN. cbn [length] in R. rewrite app_length in R. assert (EP : pid d k = pr_id p) by (unfold pid; rewrite G; reflexivity).
      inversion_clear ND as [|? ? NI ND0]. apply NoDup_app_inv in ND0. destruct ND0 as (ND1 & ND2 & ND3). destruct (UD k p (or_introl eq_refl) G) as (B & E).
      assert (U0 : get_processor_key_by_id d1 (pr_id p) = None) by (apply UN; left; exact EP).
      assert (A : goes d1 s x1 (fun d2 s2 => (exists t, s2 = put_text s t) /\ grown d1 d2 (1 + length l1) ([pr_id p] ++ map (pid d) l1))).
      { destruct (pr_processors p) as [|c cs] eqn:PP.
        - injection W1 as <-. inversion L1; subst. apply goes_empty. intros t. destruct (processor_starts d1 (put_text s t) p PR B E U0 ltac:(lia) T) as (d2 & k' & _ & GR & _ & M). exists d2, (put_text s t). split; [exact M|].
          apply goes_text, goes_nil. intros u. split; [eexists; reflexivity|exact GR].
        - apply rbind_ok in W1. destruct W1 as (y & Y & W1). injection W1 as <-. apply goes_start. intros t. destruct (processor_starts d1 (put_text s t) p PR B E U0 ltac:(lia) T) as (d2 & k' & GK & GR & M & _). eexists _, _. split; [exact M|].
          eapply goes_app.
          { eapply (IHF _ _ _ L1 Y); [intros j q J; apply UD; right; apply in_app_iff; auto|exact ND1|exact PR| |rewrite (gw_len _ _ _ _ GR); lia|exact GK].
            intros id I'. destruct (get_processor_key_by_id d2 id) eqn:Q; [|reflexivity]. exfalso. destruct (gw_new _ _ _ _ GR id) as [Q'|[<-|[]]]; [congruence|apply Q', UN; right; apply in_app_iff; auto|]. apply NI. rewrite EP. apply in_app_iff. auto. }
          cbn beta. intros d3 s3 ((u & ->) & GR3). apply goes_end. intros v. rewrite processor_end by exact PR. eexists _, _. split; [reflexivity|]. apply goes_text, goes_nil. intros w. split; [eexists; reflexivity|].
          eapply grown_trans; eassumption. }
      eapply goes_app; [exact A|]. cbn beta. intros d2 s2 ((t & ->) & GR). eapply goes_weaken.
      * eapply (IH2 x2 W2); [intros j q J; apply UD; right; apply in_app_iff; auto|exact ND2|exact PR| |rewrite (gw_len _ _ _ _ GR); lia|].
        -- intros id I'. destruct (get_processor_key_by_id d2 id) eqn:Q; [|reflexivity]. exfalso. destruct (gw_new _ _ _ _ GR id) as [Q'|Q']; [congruence|apply Q', UN; right; apply in_app_iff; auto|].
           apply in_app_iff in Q'. destruct Q' as [[<-|[]]|Q']; [apply NI; rewrite EP; apply in_app_iff; auto|apply (ND3 id Q' I')].
        -- cbn [put_text ms_procs]. unfold top_ok in *. destruct (ms_procs s); [exact I|apply (gw_old _ _ _ _ GR), T].
      * cbn beta. intros d3 s3 ((u & ->) & GR3). split; [eexists; reflexivity|]. pose proof (grown_trans _ _ _ _ _ _ _ GR GR3) as Q. cbn [length map]. rewrite app_length, map_app, EP. cbn [app] in Q |- *. exact Q.
Qed.

(* ---------------------------------------------------------------- declarations *)
Lemma annotators_go d ps : forall x, w_annotators d ps = Ok x -> forall d1 s, ms_decls s = true ->
  goes d1 s x (fun d2 s2 => d2 = d1 /\ ms_decls s2 = true /\ ms_prov s2 = ms_prov s /\ ms_procs s2 = ms_procs s).
Proof.
  induction ps as [|k ps IH]; cbn [w_annotators]; intros x W d1 s DE; [injection W as <-; apply goes_nil; auto|].
  destruct (get_processor d k) as [p|]; [|discriminate]. apply rbind_ok in W. destruct W as (y & Y & W). injection W as <-. apply goes_empty. intros t.
  unfold meta_empty. cbn [String.eqb Ascii.eqb Bool.eqb andb put_text ms_decls]. rewrite DE. cbn. destruct (ms_dk s) as [dk|]; eexists _, _; (split; [reflexivity|]); (eapply goes_weaken; [apply (IH y Y); first [reflexivity|exact DE]|auto]).
Qed.
Lemma add_declaration_ok d x : (N.of_nat (length (st_items (doc_decls d)) + 1) <= max_dec + 1)%N ->
  exists d1 k, add_declaration d x = (d1, Ok k) /\ length (st_items (doc_decls d1)) <= length (st_items (doc_decls d)) + 1 /\ doc_procs d1 = doc_procs d.
Proof.
  intros R. unfold add_declaration, st_add. destruct (st_get_key d_maybe_id (doc_decls d) x) as [k|]; [eexists _, _; split; [reflexivity|]; cbn; split; [lia|reflexivity]|].
  assert (E : (N.of_nat (length (st_items (doc_decls d))) <=? max_dec)%N = true) by (apply N.leb_le; lia). rewrite E. eexists _, _. split; [reflexivity|]. cbn. rewrite app_length. cbn. split; [lia|reflexivity].
Qed.
Lemma declarations_go d items : forall x, w_declaration_list d items = Ok x -> forall d1 s, ms_decls s = true -> (N.of_nat (length (st_items (doc_decls d1)) + length items) <= max_dec + 1)%N ->
  goes d1 s x (fun d2 s2 => length (st_items (doc_decls d2)) <= length (st_items (doc_decls d1)) + length items /\ doc_procs d2 = doc_procs d1 /\ ms_decls s2 = true /\ ms_prov s2 = ms_prov s /\ ms_procs s2 = ms_procs s).
Proof.
  induction items as [|[x|] items IH]; cbn [w_declaration_list]; intros w W d1 s DE R.
  - injection W as <-. apply goes_nil. intros t. cbn. repeat split; auto. lia.
  - apply rbind_ok in W. destruct W as (w1 & W1 & W). apply rbind_ok in W. destruct W as (w2 & W2 & W). injection W as <-. cbn [length] in R |- *. destruct (annotation_name (d_type x)) as (N1 & N2 & N3 & N4 & N5 & N6 & N7). cbv zeta in *.
    eapply (goes_app _ _ _ _ (fun d2 s2 => length (st_items (doc_decls d2)) <= length (st_items (doc_decls d1)) + 1 /\ doc_procs d2 = doc_procs d1 /\ ms_decls s2 = true /\ ms_prov s2 = ms_prov s /\ ms_procs s2 = ms_procs s)).
    + unfold w_declaration in W1. destruct (d_processors x) as [|k ks].
      * injection W1 as <-. apply goes_empty. intros t. unfold meta_empty. rewrite N6, N7. cbn [andb]. eexists _, _. split; [reflexivity|]. apply goes_text, goes_nil. intros u. cbn. repeat split; auto. lia.
      * apply rbind_ok in W1. destruct W1 as (y & Y & W1). injection W1 as <-. apply goes_start. intros t. unfold meta_start. rewrite N1, N2, N3, N4, N5, N6. cbn [andb put_text ms_decls]. rewrite DE, declaration_read. cbn [parse_err sbind].
        destruct (add_declaration_ok d1 (d_new (d_type x) (d_set x) (d_alias x) (d_format x)) ltac:(lia)) as (d2 & k' & A & L & P). rewrite A. cbn [map_err sbind]. eexists _, _. split; [reflexivity|].
        eapply goes_app; [apply (annotators_go d _ _ Y); reflexivity|]. cbn beta. intros d3 s3 (-> & DE3 & PR3 & PS3). apply goes_end. intros u. unfold meta_end. rewrite N1, N2, N3, N4, N5, N6, N7. cbn [andb put_text ms_decls]. rewrite DE3.
        eexists _, _. split; [reflexivity|]. apply goes_text, goes_nil. intros v. cbn. repeat split; auto.
    + cbn beta. intros d2 s2 (L & P & DE2 & PR2 & PS2). eapply goes_weaken; [apply (IH w2 W2); [exact DE2|lia]|]. cbn beta. intros d3 s3 (L3 & P3 & DE3 & PR3 & PS3). repeat split; [lia|congruence|exact DE3|congruence|congruence].
  - cbn [length] in *. eapply goes_weaken; [apply (IH w W d1 s DE ltac:(lia))|]. cbn beta. intros d3 s3 (L3 & Q). split; [lia|exact Q].
Qed.

(* ---------------------------------------------------------------- the whole metadata block *)
Lemma metas_go m : forall d s, goes d s (flat_map w_meta m) (fun d2 _ => doc_decls d2 = doc_decls d).
Proof.
  induction m as [|[k v] m IH]; intros d s; [apply goes_nil; reflexivity|]. cbn [flat_map w_meta fst snd app]. apply goes_start. intros t. rewrite meta_open_state. eexists _, _. split; [reflexivity|]. apply goes_text, goes_end. intros u.
  unfold meta_end. cbn [String.eqb Ascii.eqb Bool.eqb andb]. eexists _, _. split; [reflexivity|]. apply goes_text. eapply goes_weaken; [apply IH|]. cbn beta. intros d2 _ ->.
  unfold meta_close. repeat match goal with |- context [match ?x with _ => _ end] => destruct x end; reflexivity.
Qed.
Lemma submetas_go (m : list (string * metadata)) : forall d s, goes d s (flat_map (fun p => flat_map w_meta (m_data (snd p))) m) (fun d2 _ => doc_decls d2 = doc_decls d).
Proof.
  induction m as [|x m IH]; intros d s; [apply goes_nil; reflexivity|]. cbn [flat_map]. eapply goes_app; [apply metas_go|]. cbn beta. intros d1 s1 <-. apply IH.
Qed.
Lemma assigned_decls_len l : forall d, length (st_items (doc_decls (assign_annotators d l))) = length (st_items (doc_decls d)).
Proof.
  induction l as [|[dk id] l IH]; intros d; cbn [assign_annotators]; [reflexivity|]. rewrite IH. destruct (get_processor_key_by_id d id); [|reflexivity]. unfold upd_declaration. destruct (get_declaration d dk); [|reflexivity]. apply st_set_len.
Qed.
Lemma metadata_goes fuel d m lst d1 rest dep acc brk t : listed d (doc_chain d) lst -> undated d lst -> NoDup (map (pid d) lst) -> (N.of_nat (length lst) <= max_proc + 1)%N ->
  (N.of_nat (length (st_items (doc_decls d))) <= max_dec + 1)%N -> w_metadata fuel d = Ok m -> doc_decls d1 = st_empty -> doc_procs d1 = st_empty ->
  exists d2 dep', parse_metadata d1 (put_text ms_init t) (rd i dep acc brk (m ++ rest)) = (d2, Ok (rd i dep' "" true (wnl :: rest))) /\ length (st_items (doc_decls d2)) <= length (st_items (doc_decls d)).
Proof.
  intros LS UD ND RP RD W E1 E2. unfold w_metadata in W. apply rbind_ok in W. destruct W as (decls & WD & W). apply rbind_ok in W. destruct W as (prov & WP & W). injection W as <-.
  unfold w_declarations in WD. apply rbind_ok in WD. destruct WD as (xd & XD & WD). injection WD as <-. unfold w_provenance in WP. apply rbind_ok in WP. destruct WP as (xp & XP & WP). injection WP as <-.
  set (body := WStart "metadata" (oattr "type" (m_type (doc_metadata d)) ++ oattr "src" (m_src (doc_metadata d))) :: wnl :: (WStart "annotations" [] :: wnl :: xd ++ [WEnd "annotations"; wnl]) ++ (WStart "provenance" [] :: wnl :: xp ++ [WEnd "provenance"; wnl]) ++
    flat_map w_meta (m_data (doc_metadata d)) ++ flat_map (fun p => flat_map w_meta (m_data (snd p))) (doc_submetadata d)).
  assert (GB : goes d1 ms_init body (fun d2 _ => length (st_items (doc_decls d2)) <= length (st_items (doc_decls d)))).
  { subst body. apply goes_start. intros u. destruct (metadata_start_state d1 (put_text ms_init u) (m_type (doc_metadata d)) (m_src (doc_metadata d))) as (s' & E & ->). eexists _, _. split; [exact E|]. apply goes_text.
    match goal with |- goes ?x _ _ _ => set (d1' := x); change (doc_decls d1) with (doc_decls d1') in E1; change (doc_procs d1) with (doc_procs d1') in E2; clearbody d1' end. clear E.
    cbn [app]. apply goes_start. intros u1. unfold meta_start at 1. cbn [String.eqb Ascii.eqb Bool.eqb]. eexists _, _. split; [reflexivity|]. apply goes_text. rewrite <- app_assoc.
    eapply goes_app; [apply (declarations_go d _ _ XD); [reflexivity|rewrite E1; cbn; exact RD]|]. cbn beta. intros d2 s2 (L2 & P2 & DE2 & PR2 & PS2). rewrite E1 in L2. cbn [st_items st_empty length Nat.add] in L2. cbn in PR2, PS2.
    cbn [app]. apply goes_end. intros u2. unfold meta_end. cbn [String.eqb Ascii.eqb Bool.eqb]. eexists _, _. split; [reflexivity|]. apply goes_text.
    apply goes_start. intros u3. unfold meta_start at 1. cbn [String.eqb Ascii.eqb Bool.eqb]. eexists _, _. split; [reflexivity|]. apply goes_text. rewrite <- app_assoc.
    eapply goes_app.
    { eapply (procs_goes d fuel _ _ _ LS XP UD ND); [reflexivity|intros id _; unfold get_processor_key_by_id; rewrite P2, E2; reflexivity|unfold procs_len; rewrite P2, E2; cbn; exact RP|cbn [put_text ms_procs]; rewrite PS2; exact I]. }
    cbn beta. intros d3 s3 ((u4 & ->) & GR). cbn [app]. apply goes_end. intros u5. unfold meta_end. cbn [String.eqb Ascii.eqb Bool.eqb]. eexists _, _. split; [reflexivity|]. apply goes_text.
    eapply goes_app; [apply metas_go|]. cbn beta. intros d4 s4 E4. eapply goes_weaken; [apply submetas_go|]. cbn beta. intros d5 s5 E5. rewrite E5, E4, assigned_decls_len, (gw_decls _ _ _ _ GR). exact L2. }
  assert (EM : forall r, (WStart "metadata" (oattr "type" (m_type (doc_metadata d)) ++ oattr "src" (m_src (doc_metadata d))) :: wnl :: (WStart "annotations" [] :: wnl :: xd ++ [WEnd "annotations"; wnl]) ++ (WStart "provenance" [] :: wnl :: xp ++ [WEnd "provenance"; wnl]) ++
      flat_map w_meta (m_data (doc_metadata d)) ++ flat_map (fun p => flat_map w_meta (m_data (snd p))) (doc_submetadata d) ++ [WEnd "metadata"; wnl]) ++ r = body ++ WEnd "metadata" :: wnl :: r).
  { intros r. subst body. repeat (cbn [app]; rewrite <- !app_assoc). reflexivity. }
  rewrite EM. destruct (GB dep acc brk t (WEnd "metadata" :: wnl :: rest)) as (d2 & s2 & dep2 & acc2 & brk2 & L & ->). rewrite rd_end.
  match goal with |- context [parse_metadata d2 s2 (flush ?x ++ ?l)] => destruct (flushed d2 s2 x l) as (u & ->) end. cbn [parse_metadata meta_end String.eqb Ascii.eqb Bool.eqb]. eexists _, _. split; [reflexivity|exact L].
Qed.
End Goes.
