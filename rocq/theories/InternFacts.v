(* Interning of classes, subsets and subclasses. *)
From Coq Require Import String List Bool Arith NArith Lia.
From Verif Require Import Base BaseFacts Types TypesFacts SpecTable Attrib AttribFacts Element Store StoreFacts Metadata Document Select DocOps Xml Parser History FrameFacts InvFacts DocFacts StoreThms.
Import ListNotations.
Open Scope list_scope.

(* the three vocabularies of a declaration *)
Inductive vocab : Set := VClass | VSubset | VSubclass.
Definition v_add (v : vocab) : declaration -> string -> declaration * res nat :=
  match v with VClass => d_add_class | VSubset => d_add_subset | VSubclass => d_add_subclass end.
Definition v_get (v : vocab) : declaration -> nat -> option string :=
  match v with VClass => d_get_class | VSubset => d_get_subset | VSubclass => d_get_subclass end.
Definition v_key (v : vocab) : declaration -> string -> option nat :=
  match v with VClass => d_class_key | VSubset => d_subset_key | VSubclass => d_subclass_key end.
(* any sequence of encodings in any of the three *)
Definition v_adds (dec : declaration) (l : list (vocab * string)) : declaration :=
  fold_left (fun dec x => fst (v_add (fst x) dec (snd x))) l dec.

Definition sopt_wf (o : option sstore) : Prop := match o with Some s => ss_wf s | None => True end.
Definition decl_wf (dec : declaration) : Prop :=
  sopt_wf (d_classes dec) /\ sopt_wf (d_subsets dec) /\ sopt_wf (d_subclasses dec).

Lemma ss_add_result mk (s s' : sstore) x k : ss_wf s -> ss_add mk s x = (s', Ok k) -> st_get s' k = Some x /\ ss_get_key s' x = Some k.
Proof.
  rewrite ss_add_eq. intros W E. pose proof (add_cases mk (fun y : string => Some y) (fun _ y => y) s x) as C.
  rewrite E in C. cbn [fst snd] in C. inversion C as [id j M J|s2 K L IT IX|]; subst.
  - inversion M; subst. destruct W as (_ & Hi & _). destruct (Hi _ _ J) as (y & Y & Z). inversion Z; subst. auto.
  - rewrite (st_get_snoc _ _ _ _ IT), Nat.eqb_refl. unfold ss_get_key. rewrite IX. rewrite smap_get_insert_same. auto.
Qed.
Lemma ss_add_wf mk (s : sstore) x : ss_wf s -> ss_wf (fst (ss_add mk s x)).
Proof. rewrite ss_add_eq. intros W. apply add_wf; [reflexivity|exact W]. Qed.
Lemma sopt_add_wf mk o x : sopt_wf o -> sopt_wf (fst (sopt_add mk o x)).
Proof.
  unfold sopt_add. set (s := match o with Some s => s | None => st_empty end). intros W.
  assert (WS : ss_wf s) by (destruct o; [exact W|apply st_wf_empty]).
  destruct (ss_get_key s x); [exact WS|]. pose proof (ss_add_wf mk s x WS) as A. destruct (ss_add mk s x). exact A.
Qed.
Lemma sopt_add_result mk o o' x k : sopt_wf o -> sopt_add mk o x = (o', Ok k) -> sopt_get o' k = Some x /\ sopt_key o' x = Some k.
Proof.
  unfold sopt_add. set (s := match o with Some s => s | None => st_empty end). intros W.
  assert (WS : ss_wf s) by (destruct o; [exact W|apply st_wf_empty]).
  destruct (ss_get_key s x) as [j|] eqn:K.
  - intros E; inversion E; subst. cbn. split; [|exact K]. destruct WS as (_ & Hi & _). destruct (Hi _ _ K) as (y & Y & Z). congruence.
  - destruct (ss_add mk s x) as [s' r] eqn:A. intros E; inversion E; subst. cbn. eapply ss_add_result; eassumption.
Qed.
Lemma v_decl_add v : decl_add (v_add v).
Proof. destruct v; constructor. Qed.
Lemma v_add_wf v dec x : decl_wf dec -> decl_wf (fst (v_add v dec x)).
Proof.
  intros (A & B & C). destruct v; cbn [v_add]; unfold d_add_class, d_add_subset, d_add_subclass;
    match goal with |- context [sopt_add ?m ?o ?x] => pose proof (sopt_add_wf m o x) as W; destruct (sopt_add m o x) as [o' r] end;
    cbn in W |- *; unfold decl_wf; cbn; auto.
Qed.
Lemma decl_add_wf add dec x : decl_add add -> decl_wf dec -> decl_wf (fst (add dec x)).
Proof. intros [] W; [apply (v_add_wf VClass)|apply (v_add_wf VSubclass)|apply (v_add_wf VSubset)]; exact W. Qed.
Lemma v_add_result v dec dec' x k : decl_wf dec -> v_add v dec x = (dec', Ok k) -> v_get v dec' k = Some x /\ v_key v dec' x = Some k.
Proof.
  intros (A & B & C). destruct v; cbn [v_add v_get v_key]; unfold d_add_class, d_add_subset, d_add_subclass;
    match goal with |- context [sopt_add ?m ?o ?x] => pose proof (sopt_add_result m o) as W; destruct (sopt_add m o x) as [o' r] eqn:E end;
    intros H; inversion H; subst; cbn; eapply W; eauto.
Qed.
Lemma v_keeps v a b : decl_keeps a b -> sub_get (v_get v a) (v_get v b) /\ sub_get (v_key v a) (v_key v b).
Proof. intros K. destruct v; split; apply K. Qed.
Lemma v_adds_keeps l : forall dec, decl_keeps dec (v_adds dec l).
Proof.
  induction l as [|[v x] l IH]; intros dec; cbn; [apply decl_keeps_refl|].
  eapply decl_keeps_trans; [apply decl_add_keeps, v_decl_add|]. apply IH.
Qed.
Lemma v_adds_wf l : forall dec, decl_wf dec -> decl_wf (v_adds dec l).
Proof. induction l as [|[v x] l IH]; intros dec W; cbn; [exact W|]. apply IH, v_add_wf, W. Qed.
Lemma decl_new_wf t s a f : decl_wf (d_new t s a f).
Proof. repeat split; exact I. Qed.
Lemma decl_fresh_wf x : decl_fresh x -> decl_wf x.
Proof. intros (_ & A & B & C). unfold decl_wf. rewrite A, B, C. cbn. auto. Qed.

(* a key of a consistent vocabulary means one string, a string has one key *)
Lemma v_key_inv v dec x k : decl_wf dec -> v_key v dec x = Some k -> v_get v dec k = Some x.
Proof.
  intros (A & B & C).
  assert (S : forall o, sopt_wf o -> sopt_key o x = Some k -> sopt_get o k = Some x).
  { intros [s|]; cbn; [|discriminate]. intros (_ & Hi & _) K. destruct (Hi _ _ K) as (y & Y & Z). congruence. }
  destruct v; cbn [v_key v_get]; apply S; assumption.
Qed.
Lemma v_get_inv v dec x k : decl_wf dec -> v_get v dec k = Some x -> v_key v dec x = Some k.
Proof.
  intros (A & B & C).
  assert (S : forall o, sopt_wf o -> sopt_get o k = Some x -> sopt_key o x = Some k).
  { intros [s|]; cbn; [|discriminate]. intros (_ & _ & Hu) K. apply (Hu _ _ _ K). reflexivity. }
  destruct v; cbn [v_key v_get]; apply S; assumption.
Qed.
Lemma v_bijection v dec x k1 l y k2 dec1 dec3 : decl_wf dec ->
  v_add v dec x = (dec1, Ok k1) -> v_add v (v_adds dec1 l) y = (dec3, Ok k2) ->
  v_get v dec3 k1 = Some x /\ v_get v dec3 k2 = Some y /\ (k1 = k2 <-> x = y).
Proof.
  intros W A B. assert (W1 : decl_wf dec1) by (replace dec1 with (fst (v_add v dec x)) by (rewrite A; reflexivity); apply v_add_wf, W).
  assert (W2 : decl_wf (v_adds dec1 l)) by (apply v_adds_wf, W1).
  assert (W3 : decl_wf dec3) by (replace dec3 with (fst (v_add v (v_adds dec1 l) y)) by (rewrite B; reflexivity); apply v_add_wf, W2).
  destruct (v_add_result _ _ _ _ _ W A) as (G1 & K1). destruct (v_add_result _ _ _ _ _ W2 B) as (G2 & K2).
  assert (KP : decl_keeps dec1 dec3).
  { eapply decl_keeps_trans; [apply v_adds_keeps|]. replace dec3 with (fst (v_add v (v_adds dec1 l) y)) by (rewrite B; reflexivity).
    apply decl_add_keeps, v_decl_add. }
  apply (v_keeps v) in KP. destruct KP as (KG & KK). apply KG in G1. apply KK in K1.
  split; [exact G1|]. split; [exact G2|]. split; intros; subst; congruence.
Qed.

(* ---------------------------------------------------------------- in documents *)
Definition vocabs_ok (d : document) : Prop := st_all (fun _ dec => decl_wf dec) (doc_decls d).
Lemma vocabs_prim0 g a b : (forall x, g_decl g x -> decl_wf x) -> prim0 g a b -> vocabs_ok a -> vocabs_ok b.
Proof.
  intros GD P H. destruct P; rewrite ?add_declaration_fst, ?add_provenance_fst in *; unfold vocabs_ok in *; docs; try exact H.
  - apply st_all_add; [exact H|]. apply GD in H0. destruct x; exact H0.
  - apply st_all_set; [exact H|]. pose proof (H _ _ H0) as W. destruct dec; exact W.
  - apply st_all_set; [exact H|]. apply decl_add_wf; [exact H0|]. apply (H _ _ H1).
Qed.
Lemma vocabs_prims g a b : (forall t s x f, g_decl g (d_new t s x f)) -> (forall x, g_decl g x -> decl_wf x) -> prims g a b -> vocabs_ok a -> vocabs_ok b.
Proof.
  intros HD GD. apply prims_inv; [exact HD|intros a' b' P; apply (vocabs_prim0 g _ _ GD P)|].
  intros d e ctx d1 e1 _ _ _ H. exact H.
Qed.
Theorem reachable_vocabs d : reachable normal d -> vocabs_ok d.
Proof.
  intros R. destruct (reachable_prims _ _ normal_ok R) as (id & ad & P).
  eapply (vocabs_prims normal); [apply normal_ok|exact decl_fresh_wf|exact P|]. intros [|k] x H; discriminate.
Qed.
Lemma history_reachable_n d l d' : reachable normal d -> history normal d l d' -> reachable normal d'.
Proof. intros R H. apply (history_prims normal d l d' normal_ok R H). Qed.

Lemma doc_add_class_result d dk c d1 k : vocabs_ok d -> doc_add_class d dk c = (d1, Ok k) ->
  exists dec, get_declaration d1 dk = Some dec /\ d_get_class dec k = Some c /\ d_class_key dec c = Some k.
Proof.
  intros V H. unfold doc_add_class in H. destruct (get_declaration d dk) as [dec|] eqn:G; [|discriminate].
  destruct (d_add_class dec c) as [dec' r] eqn:A. inversion H; subst; clear H.
  exists dec'. split; [apply (st_get_set_same _ _ _ _ G)|]. apply (v_add_result VClass dec dec' c k (V _ _ G) A).
Qed.
Lemma class_bijection d dk c1 k1 d1 l d2 c2 k2 d3 : reachable normal d ->
  doc_add_class d dk c1 = (d1, Ok k1) -> history normal d1 l d2 -> doc_add_class d2 dk c2 = (d3, Ok k2) ->
  (exists dec, get_declaration d3 dk = Some dec /\ d_get_class dec k1 = Some c1 /\ d_get_class dec k2 = Some c2) /\
  doc_class_key d3 dk c1 = Ok k1 /\ doc_class_key d3 dk c2 = Ok k2 /\ (k1 = k2 <-> c1 = c2).
Proof.
  intros R A H B.
  assert (R1 : reachable normal d1).
  { eapply (reach_op normal d 0 (OAddClass dk c1) _ (Ok tt)); [exact R|exact I| |exact I]. cbn [run_op forget]. rewrite A. reflexivity. }
  assert (R2 := history_reachable_n _ _ _ R1 H).
  destruct (doc_add_class_result _ _ _ _ _ (reachable_vocabs _ R) A) as (dec1 & G1 & X1 & Y1).
  destruct (doc_add_class_result _ _ _ _ _ (reachable_vocabs _ R2) B) as (dec3 & G3 & X3 & Y3).
  assert (L : doc_le d1 d3).
  { eapply doc_le_trans; [eapply history_le; [exact normal_ok|exact R1|exact H]|].
    apply (prims_le normal); [apply normal_ok|]. apply lift. replace d3 with (fst (doc_add_class d2 dk c2)) by (rewrite B; reflexivity). apply doc_add_class_p0. }
  destruct L as [_ (L & _) _]. destruct (L _ _ G1) as (dec & G & K). unfold get_declaration in G3. rewrite G in G3. inversion G3; subst dec3; clear G3.
  pose proof (dk_class _ _ K _ _ X1) as X1'. pose proof (dk_class_key _ _ K _ _ Y1) as Y1'.
  split; [exists dec; auto|]. unfold doc_class_key, get_declaration. rewrite G, Y1', Y3. cbn. repeat split; try reflexivity; intros; subst; congruence.
Qed.
