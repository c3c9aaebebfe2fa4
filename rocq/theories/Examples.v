(* Concrete documents, made by running operations of the model. They show that the hypotheses of the property
   theorems are met. *)
From Coq Require Import String List Bool Arith NArith Lia.
From Verif Require Import Base BaseFacts Types TypesFacts SpecTable Attrib Element Store Metadata Document Select DocOps Text Xml Parser Serialiser History FrameFacts InvFacts.
Import ListNotations.
Open Scope list_scope.

(* ---------------------------------------------------------------- decidable version of [op_ok normal] *)
Definition textualb (l : list Attribute) : bool := forallb (fun a => negb (decodable a)) l.
Fixpoint elem_textualb (e : elementdata) : bool :=
  match e with
  | mkElem _ attribs data _ _ =>
      textualb attribs &&
      (fix go (l : list datatype) : bool :=
         match l with
         | [] => true
         | DAddElement c :: r => elem_textualb c && go r
         | _ :: r => go r
         end) data
  end.
Definition proc_freshb (p : processor) : bool :=
  match pr_processors p, pr_parent p with [], None => true | _, _ => false end.
Fixpoint proc_fresh_allb (p : processor) : bool :=
  match p with
  | mkProc _ _ _ _ _ _ _ _ _ _ _ procs _ _ _ par _ _ pending =>
      match procs, par with [], None => true | _, _ => false end &&
      (fix go (l : list processor) : bool :=
         match l with [] => true | q :: r => proc_fresh_allb q && go r end) pending
  end.
Definition decl_freshb (x : declaration) : bool :=
  match d_processors x, d_classes x, d_subsets x, d_subclasses x with [], None, None, None => true | _, _, _, _ => false end.
Definition props_okb (p : docprops) : bool :=
  match dp_processor p with Some pr => proc_fresh_allb pr | None => true end.
Definition normal_opb (d : document) (o : op) : bool :=
  match o with
  | OAddElement e | OAddElementTo _ e | OAnnotate _ e | OAnnotateSpan e => elem_textualb e
  | OStoreAdd e _ => textualb (e_attribs e)
  | OAddDeclaration x => decl_freshb x
  | OAddProvenance p => proc_freshb p
  | OAddProcessor p | OAddSubprocessor _ p => proc_fresh_allb p
  | OActivate k => match get_processor d k with Some _ => true | None => false end
  | OApplyProperties p => props_okb p
  | _ => true
  end.
Lemma textualb_spec l : textualb l = true -> textual l.
Proof. unfold textualb, textual. rewrite forallb_forall. intros H a I. apply H in I. apply negb_true_iff in I. exact I. Qed.
Lemma elem_textualb_spec e : elem_textualb e = true -> elem_all (fun _ l => textual l) e.
Proof.
  induction e as [e IH] using elem_ind. intros H. destruct e as [t a data k p]. cbn [elem_textualb] in H.
  apply andb_true_iff in H. destruct H as (HA & HD). constructor; [apply textualb_spec, HA|]. cbn [e_data] in *.
  intros c I. rewrite Forall_forall in IH. apply (IH _ I). clear HA IH.
  induction data as [|x data IHd]; [destruct I|]. destruct I as [->|I].
  - apply andb_true_iff in HD. tauto.
  - apply IHd; [|exact I]. destruct x; try exact HD. apply andb_true_iff in HD. tauto.
Qed.
Lemma proc_fresh_allb_spec p : proc_fresh_allb p = true -> proc_all proc_fresh p.
Proof.
  induction p as [p IH] using proc_ind. intros H. destruct p. cbn [proc_fresh_allb] in H.
  apply andb_true_iff in H. destruct H as (HA & HD). constructor.
  - unfold proc_fresh. cbn. destruct pr_processors, pr_parent; try discriminate. auto.
  - cbn [Metadata.pr_pending] in *. intros c I. rewrite Forall_forall in IH. apply (IH _ I). clear HA IH.
    induction pr_pending as [|x l IHd]; [destruct I|]. apply andb_true_iff in HD. destruct I as [->|I]; [tauto|]. apply IHd; tauto.
Qed.
Lemma props_okb_spec p : props_okb p = true -> props_ok normal p.
Proof. unfold props_okb, props_ok. intros H pr E. rewrite E in H. apply proc_fresh_allb_spec, H. Qed.
Lemma normal_opb_spec d o : normal_opb d o = true -> op_ok normal d o.
Proof.
  destruct o; cbn [normal_opb op_ok]; auto using elem_textualb_spec, proc_fresh_allb_spec, props_okb_spec.
  - intros H. exact (textualb_spec _ H).
  - unfold decl_freshb. cbn. unfold decl_fresh. destruct (d_processors x), (d_classes x), (d_subsets x), (d_subclasses x); try discriminate. auto.
  - unfold proc_freshb. cbn. unfold proc_fresh. destruct (pr_processors p), (pr_parent p); try discriminate. auto.
  - intros H _. destruct (get_processor d k); [eauto|discriminate].
Qed.

(* run operations, each allowed under [normal] and each returning *)
Fixpoint exec (fuel : nat) (d : document) (l : list op) : option document :=
  match l with
  | [] => Some d
  | o :: r => if normal_opb d o then
                match run_op fuel d o with
                | (d1, Ok _) => exec fuel d1 r
                | (d1, Err _) => exec fuel d1 r
                | _ => None
                end
              else None
  end.
Lemma exec_history fuel l : forall d d', exec fuel d l = Some d' -> history normal d l d'.
Proof.
  induction l as [|o l IH]; intros d d'; cbn; [intros H; inversion H; constructor|].
  destruct (normal_opb d o) eqn:B; [|discriminate]. apply normal_opb_spec in B.
  destruct (run_op fuel d o) as [d1 [u|e| |]] eqn:R; try discriminate; intros H;
    eapply hist_cons; try eassumption; try exact I; apply IH, H.
Qed.
Lemma history_reachable g l : forall d d', reachable g d -> history g d l d' -> reachable g d'.
Proof. intros d d' R H. induction H; [exact R|]. apply IHhistory. eapply reach_op; eassumption. Qed.
Lemma exec_reachable fuel l d d' : reachable normal d -> exec fuel d l = Some d' -> reachable normal d'.
Proof. intros R H. eapply history_reachable; [exact R|]. eapply exec_history, H. Qed.

(* fewer restrictions, more documents *)
Record guards_le (g h : guards) : Prop := {
  gl_elem : forall t l, g_elem g t l -> g_elem h t l;
  gl_decl : forall x, g_decl g x -> g_decl h x;
  gl_proc : forall p, g_proc g p -> g_proc h p;
  gl_strict : g_strict h -> g_strict g }.
Lemma elem_all_mono (P Q : ElementType -> list Attribute -> Prop) e : (forall t l, P t l -> Q t l) -> elem_all P e -> elem_all Q e.
Proof. intros H A. induction A. constructor; auto. Qed.
Lemma proc_all_mono (P Q : processor -> Prop) p : (forall q, P q -> Q q) -> proc_all P p -> proc_all Q p.
Proof. intros H A. induction A. constructor; auto. Qed.
Lemma props_ok_mono g h p : guards_le g h -> props_ok g p -> props_ok h p.
Proof. intros [A B C D] H pr E. eapply proc_all_mono; [exact C|apply H, E]. Qed.
Lemma op_ok_mono g h d o : guards_le g h -> op_ok g d o -> op_ok h d o.
Proof. intros G. pose proof G as [A B C D]. destruct o; cbn; eauto using elem_all_mono, proc_all_mono, props_ok_mono. Qed.
Lemma load_ok_mono g h O l : guards_le g h -> load_ok g O l -> load_ok h O l.
Proof.
  intros [A B C D] H ns name attrs I et x E P. destruct (H ns name attrs I et x E P) as (X & Y).
  split; [apply A, X|]. intros c IC. apply A, Y, IC.
Qed.
Lemma reachable_mono g h d : guards_le g h -> reachable g d -> reachable h d.
Proof.
  intros G R. induction R.
  - eapply reach_new; [eapply props_ok_mono|]; eassumption.
  - eapply reach_load; [eapply props_ok_mono| |]; try eassumption. eapply load_ok_mono; eassumption.
  - eapply reach_op; try eassumption. eapply op_ok_mono; eassumption.
Qed.
Lemma history_mono g h l d d' : guards_le g h -> history g d l d' -> history h d l d'.
Proof. intros G R. induction R; econstructor; try eassumption. eapply op_ok_mono; eassumption. Qed.
Lemma normal_anything : guards_le normal anything.
Proof. split; cbn; auto. Qed.

(* ---------------------------------------------------------------- a document *)
Open Scope string_scope.
Definition proc1 : processor := pr_with_type PT_Auto (pr_new "proc1" "tagger").
Definition proc2 : processor := pr_with_new_subprocessor (pr_new "proc2.1" "module") (pr_with_type PT_Manual (pr_new "proc2" "annotator")).
Definition ex_props : docprops :=
  mkDP BT_Text true [(AT_TEXT, Some DEFAULT_TEXT_SET); (AT_TOKEN, Some "tokset"); (AT_ENTITY, Some "entset")] (Some proc1).
Definition ex_new : document := fst (doc_new "example" ex_props).

Definition e_attr (t : ElementType) (l : list Attribute) : elementdata := mkElem t l [] None None.
Definition ex_pos (c : string) : elementdata := e_attr ET_PosAnnotation [A_Set "posset"; A_Class c; A_Confidence 7].
Definition ex_word (id txt pos : string) : elementdata :=
  e_add_element (e_with_text (e_attr ET_Word [A_Id id; A_Class "WORD"; A_Set "tokset"]) txt) (ex_pos pos).
Definition ex_sentence : elementdata :=
  e_add_element (e_add_element (e_add_element (e_attr ET_Sentence [A_Id "s.1"]) (ex_word "w.1" "hello" "int"))
    (ex_word "w.2" "cruel" "adj")) (ex_word "w.3" "world" "noun").
Definition ex_par : elementdata := e_add_element (e_attr ET_Paragraph [A_Id "p.1"]) ex_sentence.
Definition ex_span (c : string) (ids : list string) : elementdata :=
  e_with_span (e_attr ET_Entity [A_Class c; A_Set "entset"]) ids.

Definition fuel1 : nat := 200.
Definition ex_ops : list op :=
  [ OAddElementTo 0 ex_par;
    OAddProcessor proc2;
    OAnnotateSpan (ex_span "per" ["w.2"; "w.3"]);
    OActivate 1;
    OAnnotate 3 (e_attr ET_LemmaAnnotation [A_Set "lemset"; A_Class "hi"]) ].
Definition ex_doc : document := match exec fuel1 ex_new ex_ops with Some d => d | None => ex_new end.

(* a document with a sentence of three words, two processors and five declarations *)
Lemma ex_new_reachable : reachable normal ex_new.
Proof.
  apply (reach_new normal "example" ex_props); [|vm_compute; reflexivity]. apply props_okb_spec. vm_compute. reflexivity.
Qed.
Lemma ex_exec : exec fuel1 ex_new ex_ops = Some ex_doc.
Proof. vm_compute. reflexivity. Qed.
Lemma ex_reachable : reachable normal ex_doc.
Proof. eapply exec_reachable; [exact ex_new_reachable|exact ex_exec]. Qed.
Lemma ex_reachable_any : reachable anything ex_doc.
Proof. eapply reachable_mono; [exact normal_anything|exact ex_reachable]. Qed.
