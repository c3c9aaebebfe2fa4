(* C38: text() returns what [reads] and [mute] of TextSpec.v say, which mention no function of the model of text.rs *)
From Coq Require Import String List Bool Arith NArith Lia Relations.
From Verif Require Import Base Types SpecTable Attrib Element Store Metadata Document Select DocOps Text History BaseFacts TypesFacts StoreFacts Spec
  FrameFacts InvFacts DocFacts Examples StoreThms PropsLinks Returns TextSpec TextFacts PropsPanic PropsText.
Import ListNotations.
Open Scope string_scope.
Open Scope list_scope.

Scheme reads_mind := Minimality for reads Sort Prop
  with mute_mind := Minimality for mute Sort Prop
  with pieces_mind := Minimality for pieces Sort Prop
  with runs_mind := Minimality for runs Sort Prop
  with stuck_mind := Minimality for stuck Sort Prop.
Combined Scheme text_mind from reads_mind, mute_mind, pieces_mind, runs_mind, stuck_mind.

(* what the definition says is what the code does *)
Lemma tree_complete d rt : resolves d ->
  (forall e t, reads d rt e t -> has_text d rt e t) /\ (forall e, mute d rt e -> no_text d rt e) /\
  (forall cs ps, pieces d rt cs ps -> text_parts d rt cs ps) /\ (forall acc l t, runs d rt acc l t -> flow d rt acc l t) /\
  (forall l, stuck d rt l -> exists n x, forall f acc, n <= f -> container_loop d (fun c => text_by_key f d 0 0 false rt c None) acc l = Err x).
Proof.
  intros RS. apply text_mind.
  - intros e t C _ F. apply container_has_text; assumption.
  - intros e cs ps P S _ TP J. apply plain_has_text; [exact RS|exact P|]. exists cs, ps. auto.
  - intros e cs ps c t P S _ TP J L _ HT N. apply plain_has_text; [exact RS|exact P|]. exists cs, ps. split; [exact S|]. split; [exact TP|]. right. eauto.
  - intros e (C & H). apply silent_no_text; assumption.
  - intros e cs ps P S _ TP J N. apply plain_no_text; [exact RS|exact P|]. exists cs, ps. split; [exact S|]. split; [exact TP|]. split; [exact J|]. intros c L. destruct (N c L).
  - intros e cs ps c P S _ TP J L _ HT. apply plain_no_text; [exact RS|exact P|]. exists cs, ps. split; [exact S|]. split; [exact TP|]. split; [exact J|]. intros c' L'. apply last_tc_some in L, L'. replace c' with c by congruence. auto.
  - intros e cs ps c P S _ TP J L _ HT. apply plain_no_text; [exact RS|exact P|]. exists cs, ps. split; [exact S|]. split; [exact TP|]. split; [exact J|]. intros c' L'. apply last_tc_some in L, L'. replace c' with c by congruence. auto.
  - intros e C _ (n & x & H). exists (S n), x. cbn [text_by_key]. cbv zeta. rewrite C. apply H. lia.
  - constructor.
  - intros c l t s r _ HT D _ TP. apply tp_take; assumption.
  - intros c l r _ NT _ TP. apply tp_skip; assumption.
  - constructor.
  - intros acc s r t _ F. apply flow_text, F.
  - intros acc k c s r t G P _ HT _ F. eapply flow_child; eassumption.
  - intros acc k c r t G P _ F. eapply flow_silent; eassumption.
  - intros acc k r t G _ F. apply flow_missing; assumption.
  - intros acc x r t N1 N2 _ F. apply flow_other; assumption.
  - intros k c r G P _ NT. apply no_text_ends in NT. destruct NT as (x & NT). destruct (NT 0 0 false) as (n & Q). exists n, x. intros f acc L. cbn [container_loop]. rewrite G, P. cbv zeta. rewrite Q by exact L. reflexivity.
  - intros k c s r G P _ HT _ (n & x & IH). apply has_text_ends with (a := 0) (b := 0) (st := false) in HT. destruct HT as (m & HT). exists (Nat.max n m), x. intros f acc L. cbn [container_loop]. rewrite G, P. cbv zeta. rewrite HT by lia. apply IH. lia.
  - intros k c r G P _ (n & x & IH). exists n, x. intros f acc L. cbn [container_loop]. rewrite G, P. apply IH, L.
  - intros k r G _ (n & x & IH). exists n, x. intros f acc L. cbn [container_loop]. rewrite G. apply IH, L.
  - intros y r N _ (n & x & IH). exists n, x. intros f acc L. cbn [container_loop]. destruct y; try (apply IH, L). destruct (N k eq_refl).
Qed.

Section Sound.
Variables (d : document) (rt : bool) (f : nat).
Hypothesis RS : resolves d.
Hypothesis IHr : forall c t, text_by_key f d 0 0 false rt c None = Ok t -> reads d rt c t.
Hypothesis IHm : forall c x, text_by_key f d 0 0 false rt c None = Err x -> mute d rt c.
Lemma pieces_sound : forall cs st t, parts_loop (text_by_key f d 0 0 false rt) (get_textdelimiter f d rt) st cs = Ok t ->
  exists ps, pieces d rt cs ps /\ t = (fst st ++ lead_all (snd st) ps)%string.
Proof.
  induction cs as [|c cs IH]; intros [x s] t H; cbn [parts_loop] in H.
  - inversion H; subst. exists []. split; [constructor|]. cbn. rewrite str_app_nil_r. reflexivity.
  - apply rbind_ok in H. destruct H as (st' & P & H). apply IH in H. destruct H as (ps & TP & ->). unfold text_part in P. rewrite text_prev in P.
    destruct (text_by_key f d 0 0 false rt c None) as [y|er| |] eqn:E; cbn [rbind] in P; try discriminate.
    + destruct (get_textdelimiter f d rt c) as [z| | |] eqn:D; try discriminate.
      * inversion P; subst. exists ((c, y, z) :: ps). split; [constructor; [apply IHr, E|eapply delim_sound, D|exact TP]|]. rewrite lead_all_cons. cbn [fst snd]. rewrite <- str_app_assoc. reflexivity.
      * destruct (delim_nofail f d rt c) as [Q|(q & Q)]; congruence.
    + inversion P; subst. exists ps. split; [apply pieces_skip; [eapply IHm, E|exact TP]|reflexivity].
Qed.
Lemma pieces_no_err : forall cs st x, parts_loop (text_by_key f d 0 0 false rt) (get_textdelimiter f d rt) st cs <> Err x.
Proof.
  induction cs as [|c l IH]; intros st x; cbn [parts_loop]; [discriminate|]. destruct st as [t s]. unfold text_part.
  destruct (text_by_key f d 0 0 false rt c (Some s)); cbn [rbind]; try discriminate; [|apply IH]. destruct (delim_nofail f d rt c) as [->|(q & ->)]; cbn [rbind]; [discriminate|apply IH].
Qed.
Lemma runs_sound : forall l acc t, container_loop d (fun c => text_by_key f d 0 0 false rt c None) acc l = Ok t -> runs d rt acc l t.
Proof.
  induction l as [|x l IH]; intros acc t H; cbn [container_loop] in H; [inversion H; subst; constructor|]. destruct x; try (apply runs_other; [discriminate..|auto]).
  - apply runs_text. auto.
  - destruct (get_elementdata d k) as [c|] eqn:G; [|apply runs_missing; auto]. cbv zeta in H. destruct (p_printable (props (e_type c))) eqn:P; [|eapply runs_silent; eauto].
    apply rbind_ok in H. destruct H as (s & E & H). apply (runs_child _ _ _ _ c s); auto. apply IH in H. rewrite eqb_empty. destruct (str_is_empty acc) eqn:EA; [exact H|].
    destruct (p_textdelimiter (props (e_type c))); [rewrite <- str_app_assoc|]; exact H.
Qed.
Lemma stuck_sound : forall l acc x, container_loop d (fun c => text_by_key f d 0 0 false rt c None) acc l = Err x -> stuck d rt l.
Proof.
  induction l as [|y l IH]; intros acc x H; cbn [container_loop] in H; [discriminate|]. destruct y; try (apply stuck_other; [discriminate|eauto]).
  destruct (get_elementdata d k) as [c|] eqn:G; [|apply stuck_missing; eauto]. cbv zeta in H. destruct (p_printable (props (e_type c))) eqn:P; [|eapply stuck_silent; eauto].
  destruct (text_by_key f d 0 0 false rt c None) as [s|er| |] eqn:E; cbn [rbind] in H; try discriminate; [eapply stuck_child; eauto|eapply stuck_here; eauto].
Qed.
Lemma step_sound : forall c, (forall t, text_by_key (S f) d 0 0 false rt c None = Ok t -> reads d rt c t) /\ (forall x, text_by_key (S f) d 0 0 false rt c None = Err x -> mute d rt c).
Proof.
  intros c. destruct (p_textcontainer (props (e_type c))) eqn:C.
  - split; intros v H; cbn [text_by_key] in H; cbv zeta in H; rewrite C in H; [apply reads_content; [exact C|apply runs_sound, H]|apply mute_stuck; [exact C|eapply stuck_sound, H]].
  - destruct (negb (p_printable (props (e_type c))) || p_hidden (props (e_type c))) eqn:SI.
    + assert (X : text_by_key (S f) d 0 0 false rt c None = Err ENoText) by (cbn [text_by_key]; cbv zeta; rewrite C, SI; reflexivity). rewrite X. split; [discriminate|]. intros x _. apply mute_silent. split; [exact C|].
      apply orb_true_iff in SI. rewrite negb_true_iff in SI. exact SI.
    + apply orb_false_iff in SI. rewrite negb_false_iff in SI. assert (PL : plain c) by (split; auto). rewrite text_plain by assumption.
      destruct (parts_loop _ _ _ _) as [y|er| |] eqn:P; cbn [rbind]; [|destruct (pieces_no_err _ _ _ P)|split; discriminate..].
      apply pieces_sound in P. destruct P as (ps & TP & ->). cbn [fst snd]. rewrite lead_all_nil. cbn [String.append]. assert (SR : sources d (e_data c) (srcsb d (e_data c))) by (apply sources_iff; reflexivity).
      destruct (str_is_empty (join ps)) eqn:EJ.
      * apply emptyb in EJ. rewrite EJ. destruct (last_tc d None (e_data c)) as [tc|] eqn:LT.
        -- pose proof (proj1 (last_tc_some d tc (e_data c)) LT) as L. destruct (text_by_key f d 0 0 false rt tc None) as [s|er| |] eqn:E; cbn [rbind]; [|split; [discriminate|]|split; discriminate..].
           ++ destruct (str_is_empty s) eqn:ES.
              ** split; [discriminate|]. intros x _. apply emptyb in ES. subst s. eapply mute_empty; eauto.
              ** split; [|discriminate]. intros t Q. inversion Q; subst t. apply emptyb_false in ES. eapply reads_own; eauto.
           ++ intros x _. eapply mute_own; eauto.
        -- cbn [rbind str_is_empty]. split; [discriminate|]. intros x _. eapply mute_nothing; eauto. intros tc L. apply last_tc_some in L. congruence.
      * assert (Z' : (let? t := match last_tc d None (e_data c) with
             | Some c => if false then match text_by_key f d 0 0 false rt c None with Ok s => Ok s | Err _ => Ok (join ps) | Panic => Panic | OutOfFuel => OutOfFuel end else Ok (join ps)
             | None => Ok (join ps) end in if str_is_empty t then Err ENoText else Ok t) = Ok (join ps)) by (destruct (last_tc _ _ _); cbn [rbind]; rewrite EJ; reflexivity).
        rewrite Z'. split; [|discriminate]. intros t Q. inversion Q; subst t. apply emptyb_false in EJ. eapply reads_parts; eauto.
Qed.
End Sound.
Lemma tree_sound d rt : resolves d -> forall f c, (forall t, text_by_key f d 0 0 false rt c None = Ok t -> reads d rt c t) /\ (forall x, text_by_key f d 0 0 false rt c None = Err x -> mute d rt c).
Proof.
  intros RS. induction f as [|f IH]; intros c; [split; discriminate|]. apply step_sound; [exact RS|intros c' t; apply IH|intros c' x; apply IH].
Qed.

(* ================================================================ C38 *)
(* text() of an element is the text of the definition above, and fails exactly when the element has none *)
Theorem C38_text_of_tree : forall d k tp e, reachable anything d -> good_request d tp -> get_elementdata d k = Some e ->
  (forall t, text_is d k tp t <-> reads d (tp_retain tp) e t) /\ (text_fails d k tp <-> mute d (tp_retain tp) e).
Proof.
  intros d k tp e R GR G. pose proof (reachable_resolves d R) as RS. destruct (tree_complete d (tp_retain tp) RS) as (A & B & _). split.
  - intros t. rewrite text_is_iff by exact GR. split.
    + intros (e' & G' & f & H). replace e' with e in H by congruence. eapply tree_sound; eassumption.
    + intros H. exists e. auto.
  - rewrite (text_fails_iff d k tp e GR G). split; [|apply B]. intros (f & x & H). eapply tree_sound; eassumption.
Qed.
Print Assumptions C38_text_of_tree.
(* so an element has at most one text, and not both a text and none *)
Theorem C38_one_text : forall d rt e t, reachable anything d -> reads d rt e t -> (forall t', reads d rt e t' -> t' = t) /\ ~ mute d rt e.
Proof.
  intros d rt e t R H. pose proof (reachable_resolves d R) as RS. destruct (tree_complete d rt RS) as (A & B & _). apply A in H. pose proof (has_text_ends _ _ _ _ H 0 0 false) as E. split.
  - intros t' H'. apply A in H'. pose proof (ends_det _ _ _ E (has_text_ends _ _ _ _ H' 0 0 false)). congruence.
  - intros M. apply B, no_text_ends in M. destruct M as (x & M). pose proof (ends_det _ _ _ E (M 0 0 false)). congruence.
Qed.
Print Assumptions C38_one_text.
(* the text of a sentence and of an entity of the example document; a part-of-speech annotation has none *)
Example C38_tree_nonvacuous : reachable anything ex_doc /\ good_request ex_doc tp_default /\
  (exists e, get_elementdata ex_doc 10 = Some e /\ reads ex_doc false e "hello cruel world") /\
  (exists e, get_elementdata ex_doc 15 = Some e /\ reads ex_doc false e "cruel world") /\
  (exists e, get_elementdata ex_doc 2 = Some e /\ mute ex_doc false e).
Proof.
  pose proof ex_reachable_any as R. pose proof (ex_request false) as GR. split; [exact R|]. split; [exact GR|].
  assert (X : forall k e t, get_elementdata ex_doc k = Some e -> text_is ex_doc k tp_default t -> reads ex_doc false e t) by (intros k e t G T; apply (C38_text_of_tree ex_doc k tp_default e R GR G), T).
  split; [|split].
  - destruct (get_elementdata ex_doc 10) as [e|] eqn:G; [|vm_compute in G; discriminate]. exists e. split; [reflexivity|]. apply (X 10 e _ G). exists fuel1. vm_compute. reflexivity.
  - destruct (get_elementdata ex_doc 15) as [e|] eqn:G; [|vm_compute in G; discriminate]. exists e. split; [reflexivity|]. apply (X 15 e _ G). exists fuel1. vm_compute. reflexivity.
  - destruct (get_elementdata ex_doc 2) as [e|] eqn:G; [|vm_compute in G; discriminate]. exists e. split; [reflexivity|]. apply mute_silent. vm_compute in G. inversion G. vm_compute. auto.
Qed.
