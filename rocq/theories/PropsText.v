(* Text extraction (C37 - C41, C62) *)
From Coq Require Import String List Bool Arith NArith Lia Relations.
From Verif Require Import Base Types SpecTable Attrib Element Store Metadata Document Select DocOps Text History BaseFacts TypesFacts StoreFacts Spec
  FrameFacts InvFacts DocFacts Examples StoreThms PropsLinks Returns TextSpec TextFacts PropsPanic.
Import ListNotations.
Open Scope string_scope.
Open Scope list_scope.

(* a request for text in a declared set, for a class that occurs in it *)
Definition good_request (d : document) (tp : textparams) : Prop := exists dk c ck,
  get_declaration_key_by_id d (index_id AT_TEXT (tp_set tp)) = Some dk /\ tp_class tp = Some c /\ doc_class_key d dk c = Ok ck.
(* text() returns that text / an error *)
Definition text_is (d : document) (k : nat) (tp : textparams) (t : string) : Prop := exists fuel, doc_text fuel d k tp = Ok t.
Definition text_fails (d : document) (k : nat) (tp : textparams) : Prop := exists fuel x, doc_text fuel d k tp = Err x.
(* [text_is] of a good request is [has_text] of the element *)
Lemma text_is_iff d k tp t : good_request d tp -> (text_is d k tp t <-> exists e, get_elementdata d k = Some e /\ has_text d (tp_retain tp) e t).
Proof.
  intros (dk & c & ck & A & B & C). unfold text_is, doc_text, element_text. split.
  - intros (f & H). destruct (get_elementdata d k) as [e|]; [|discriminate]. exists e. split; [reflexivity|]. rewrite A, B in H. cbn [expect rbind] in H. rewrite C in H. cbn [rbind] in H. exists f. rewrite <- H. apply text_params.
  - intros (e & G & f & H). exists f. rewrite G, A, B. cbn [expect rbind]. rewrite C. cbn [rbind]. rewrite <- H. apply text_params.
Qed.
Lemma text_fails_iff d k tp e : good_request d tp -> get_elementdata d k = Some e -> (text_fails d k tp <-> no_text d (tp_retain tp) e).
Proof.
  intros (dk & c & ck & A & B & C) G. unfold text_fails, doc_text, element_text. rewrite G, A, B. cbn [expect rbind]. rewrite C. cbn [rbind].
  split; intros (f & x & H); exists f, x; rewrite <- H; apply text_params.
Qed.
Lemma text_is_det d k tp t t' : text_is d k tp t -> text_is d k tp t' -> t = t'.
Proof.
  intros (f & H) (g & K). unfold doc_text, element_text in H, K. destruct (get_elementdata d k) as [e|]; [|discriminate]. destruct (get_declaration_key_by_id d _); [|destruct (tp_set tp); discriminate].
  apply rbind_ok in H, K. destruct H as (c & C & H), K as (c' & C' & K). replace c' with c in K by congruence. apply rbind_ok in H, K. destruct H as (ck & CK & H), K as (ck' & CK' & K). replace ck' with ck in K by congruence.
  pose proof (ends_det _ _ _ (ends_text _ _ _ _ _ _ _ _ _ H ltac:(discriminate) 0 0 false) (ends_text _ _ _ _ _ _ _ _ _ K ltac:(discriminate) 0 0 false)). congruence.
Qed.
Lemma ex_request rt : good_request ex_doc (mkTP (Some DEFAULT_TEXT_SET) (Some "current") false rt).
Proof. exists 0, "current", 0. vm_compute. auto. Qed.

(* a check that a document is acyclic *)
Definition feedsb (d : document) (p : nat) : list nat :=
  match get_elementdata d p with
  | Some pe => flat_map (fun x => match x with
      | DElement c => c :: match get_elementdata d c with
          | Some we => if et_eqb (e_type we) ET_WordReference then match e_idref we with
                         | Some id => match get_element_key_by_id d id with Some k => [k] | None => [] end
                         | None => [] end
                       else []
          | None => [] end
      | _ => [] end) (e_data pe)
  | None => []
  end.
Fixpoint height (fuel : nat) (d : document) (k : nat) : nat :=
  match fuel with 0 => 0 | S f => S (fold_right Nat.max 0 (map (height f d) (feedsb d k))) end.
Definition acyclicb (d : document) : bool :=
  let h := map (height 20 d) (seq 0 (length (st_items (doc_elements d)))) in
  forallb (fun p => forallb (fun c => Nat.ltb (nth c h 0) (nth p h 0)) (feedsb d p)) (seq 0 (length (st_items (doc_elements d)))).
Lemma feeds_In d c p : feeds d c p -> In c (feedsb d p).
Proof.
  intros H. destruct H as [c p pe G I|c w p pe we id G I W T R K]; unfold feedsb; rewrite G; apply in_flat_map; [exists (DElement c); split; [exact I|left; reflexivity]|].
  exists (DElement w). split; [exact I|]. right. rewrite W, T, R, K. left. reflexivity.
Qed.
Lemma acyclicb_spec d : acyclicb d = true -> text_acyclic d.
Proof.
  intros H. unfold acyclicb in H. cbv zeta in H. set (h := map _ _) in H. rewrite forallb_forall in H.
  assert (X : forall x y, clos_trans nat (feeds d) x y -> nth x h 0 < nth y h 0).
  { intros x y T. induction T as [x y F|x y z _ IH1 _ IH2]; [|lia]. specialize (H y). rewrite forallb_forall in H. apply Nat.ltb_lt, H; [apply in_seq; apply feeds_bound in F; lia|apply feeds_In, F]. }
  intros k C. apply X in C. lia.
Qed.

(* ================================================================ C37 *)
Theorem C37_text_returns : forall d k tp, reachable anything d -> text_acyclic d -> tp_set tp <> None -> tp_class tp <> None ->
  exists n v, (forall fuel, n <= fuel -> doc_text fuel d k tp = v) /\ ((exists t, v = Ok t) \/ (exists x, v = Err x)).
Proof.
  intros d k tp R AC NS NC. unfold doc_text. destruct (get_elementdata d k) as [e|] eqn:G; [|exists 0, (Err EKey); eauto]. unfold element_text.
  destruct (get_declaration_key_by_id d _) as [dk|]; [|destruct (tp_set tp); [|congruence]; exists 0, (Err EEncode); eauto]. destruct (tp_class tp) as [c|]; [|congruence]. cbn [expect rbind].
  assert (CK : (exists ck, doc_class_key d dk c = Ok ck) \/ exists x, doc_class_key d dk c = Err x).
  { unfold doc_class_key. destruct (get_declaration d dk); [destruct (d_class_key _ _); cbn [ok_or]|]; eauto. }
  destruct CK as [(ck & ->)|(x & ->)]; cbn [rbind]; [|exists 0, (Err x); eauto].
  destruct (text_returns d (tp_retain tp) k e dk ck (tp_strict tp) None (reachable_resolves d R) AC G) as (v & (V1 & V2) & n & H). exists n, v. split; [exact H|]. destruct v; [eauto|eauto|congruence..].
Qed.
Print Assumptions C37_text_returns.
Example C37_nonvacuous : reachable anything ex_doc /\ text_acyclic ex_doc /\ tp_set tp_default <> None /\ tp_class tp_default <> None /\
  doc_text fuel1 ex_doc 0 tp_default = Ok "hello cruel world" /\ doc_text fuel1 ex_doc 2 tp_default = Err ENoText.
Proof. split; [exact ex_reachable_any|]. split; [apply acyclicb_spec; vm_compute; reflexivity|]. vm_compute. repeat split; congruence. Qed.
(* The hypothesis is needed: an entity that refers to itself *)
Definition ex_loop : elementdata := e_with_span (e_attr ET_Entity [A_Id "ent.1"; A_Class "per"; A_Set "entset"]) ["ent.1"].
Theorem C37_cycle_diverges : exists d k, reachable normal d /\ forall fuel, doc_text fuel d k tp_default = OutOfFuel.
Proof.
  destruct (exec fuel1 ex_doc [OAddElementTo 12 ex_loop]) as [d|] eqn:E; [|vm_compute in E; discriminate].
  assert (R : reachable normal d) by (eapply exec_reachable; [exact ex_reachable|exact E]). exists d, 18. split; [exact R|].
  assert (RS : resolves d) by (apply reachable_resolves; eapply reachable_mono; [exact normal_anything|exact R]).
  assert (X : exists e, get_elementdata d 18 = Some e /\ plain e /\ srcsb d (e_data e) = [e] /\ contb e = false) by (vm_compute in E; inversion E; subst; eexists; vm_compute; repeat split).
  assert (Y : good_request d tp_default) by (vm_compute in E; inversion E; subst; exists 0, "current", 0; vm_compute; auto).
  destruct X as (e & G & PL & SR & CB). destruct Y as (dk & c & ck & A & B & C). intros fuel. unfold doc_text, element_text. rewrite G, A, B. cbn [expect rbind]. rewrite C. cbn [rbind].
  assert (Z : forall f a b st rt p, text_by_key f d a b st rt e p = OutOfFuel).
  { induction f as [|f IH]; intros; [reflexivity|]. rewrite text_plain by assumption. rewrite SR. cbn [parts_loop text_part]. rewrite IH. reflexivity. }
  apply Z.
Qed.
Print Assumptions C37_cycle_diverges.

(* ================================================================ C38 *)
(* Elements that are printed and are not themselves text content or markup: the texts of the structural children (and of
   what word references point at) joined by their delimiters; their own text content only if that is empty. *)
Theorem C38_text_of_structure : forall d k tp e t, reachable anything d -> good_request d tp -> get_elementdata d k = Some e ->
  p_textcontainer (props (e_type e)) = false -> p_printable (props (e_type e)) = true -> p_hidden (props (e_type e)) = false ->
  (text_is d k tp t <-> exists cs ps, sources d (e_data e) cs /\ text_parts d (tp_retain tp) cs ps /\
    ((join ps <> "" /\ t = join ps) \/
     (join ps = "" /\ t <> "" /\ exists c, last_text_content d (e_data e) c /\ has_text d (tp_retain tp) c t))).
Proof.
  intros d k tp e t R GR G C P Hd. rewrite text_is_iff by exact GR. rewrite <- (plain_has_text d (tp_retain tp) e t) by (apply reachable_resolves, R || (split; auto)).
  split; [intros (e' & G' & H); congruence|intros H; exists e; auto].
Qed.
Print Assumptions C38_text_of_structure.
(* every part has characters, so [join ps = ""] says that there is no part *)
Theorem C38_parts_have_text : forall d rt l cs ps c t s, sources d l cs -> text_parts d rt cs ps -> In (c, t, s) ps ->
  p_textcontainer (props (e_type c)) = false -> t <> "" /\ p_printable (props (e_type c)) = true /\ p_hidden (props (e_type c)) = false.
Proof.
  intros d rt l cs ps c t s _ H I C. assert (HT : has_text d rt c t).
  { induction H as [|c' l' t' s' r Ht Hd H IH|c' l' r Hn H IH]; [destruct I|destruct I as [I|I]; [congruence|auto]|auto]. }
  split; [eapply plain_nonempty; eauto|]. destruct (p_printable (props (e_type c))) eqn:P, (p_hidden (props (e_type c))) eqn:Hd; auto;
    exfalso; refine (proj2 (silent_no_text d rt c C _) t HT); auto.
Qed.
Print Assumptions C38_parts_have_text.
Theorem C38_no_text_of_structure : forall d k tp e, reachable anything d -> good_request d tp -> get_elementdata d k = Some e ->
  p_textcontainer (props (e_type e)) = false -> p_printable (props (e_type e)) = true -> p_hidden (props (e_type e)) = false ->
  (text_fails d k tp <-> exists cs ps, sources d (e_data e) cs /\ text_parts d (tp_retain tp) cs ps /\ join ps = "" /\
     forall c, last_text_content d (e_data e) c -> has_text d (tp_retain tp) c "" \/ no_text d (tp_retain tp) c).
Proof. intros d k tp e R GR G C P Hd. rewrite (text_fails_iff d k tp e GR G). apply plain_no_text; [apply reachable_resolves, R|split; auto]. Qed.
Print Assumptions C38_no_text_of_structure.
(* text content and markup *)
Theorem C38_text_of_content : forall d k tp e t, good_request d tp -> get_elementdata d k = Some e -> p_textcontainer (props (e_type e)) = true ->
  (text_is d k tp t <-> flow d (tp_retain tp) "" (e_data e) t).
Proof.
  intros d k tp e t GR G C. rewrite text_is_iff by exact GR. rewrite <- (container_has_text d (tp_retain tp) e t C). split; [intros (e' & G' & H); congruence|intros H; exists e; auto].
Qed.
Print Assumptions C38_text_of_content.
(* the delimiter of an element is well defined *)
Theorem C38_one_delimiter : forall d rt e s s', delimiter d rt e s -> delimiter d rt e s' -> s = s'.
Proof. intros d rt e s s' H K. apply delimiter_ends in H, K. pose proof (ends_det _ _ _ H K). congruence. Qed.
Print Assumptions C38_one_delimiter.
Example C38_nonvacuous : reachable anything ex_doc /\ good_request ex_doc tp_default /\
  (exists e, get_elementdata ex_doc 10 = Some e /\ plain e /\ sources ex_doc (e_data e) (srcsb ex_doc (e_data e)) /\ length (srcsb ex_doc (e_data e)) = 3) /\
  text_is ex_doc 10 tp_default "hello cruel world" /\ text_is ex_doc 15 tp_default "cruel world" /\ text_is ex_doc 3 tp_default "hello" /\
  (exists e, get_elementdata ex_doc 1 = Some e /\ p_textcontainer (props (e_type e)) = true) /\ text_is ex_doc 1 tp_default "hello" /\
  text_fails ex_doc 12 tp_default.
Proof.
  split; [exact ex_reachable_any|]. split; [apply (ex_request false)|]. split.
  { eexists. split; [vm_compute; reflexivity|]. split; [vm_compute; auto|]. split; [apply sources_iff; reflexivity|vm_compute; reflexivity]. }
  split; [exists fuel1; vm_compute; reflexivity|]. split; [exists fuel1; vm_compute; reflexivity|]. split; [exists fuel1; vm_compute; reflexivity|].
  split; [eexists; vm_compute; auto|]. split; [exists fuel1; vm_compute; reflexivity|]. exists fuel1. eexists. vm_compute. reflexivity.
Qed.

(* ================================================================ C39 *)
(* Full statement: text() with a class returns the text content of that class. *)
Definition text_of_class_claim : Prop := forall d k tp e j ce c t, reachable normal d -> good_request d tp -> get_elementdata d k = Some e ->
  e_type e = ET_Word -> sources d (e_data e) [] ->
  In (DElement j) (e_data e) -> get_elementdata d j = Some ce -> e_type ce = ET_TextContent ->
  r_class d ce = Ok (Some c) -> tp_class tp = Some c -> flow d (tp_retain tp) "" (e_data ce) t -> t <> "" -> text_is d k tp t.
(* a word with a text content of class "original" and one of class "current" *)
Definition ex_text (c t : string) : elementdata := e_push (e_attr ET_TextContent [A_Class c]) (DText t).
Definition ex_two : elementdata := e_add_element (e_add_element (e_attr ET_Word [A_Id "w.9"; A_Class "WORD"; A_Set "tokset"]) (ex_text "current" "hello")) (ex_text "original" "helo").
Theorem C39_text_class_refuted : ~ text_of_class_claim.
Proof.
  intros H. destruct (exec fuel1 ex_doc [OAddElementTo 10 ex_two]) as [d|] eqn:E; [|vm_compute in E; discriminate].
  assert (R : reachable normal d) by (eapply exec_reachable; [exact ex_reachable|exact E]). vm_compute in E. inversion E; subst; clear E.
  match type of R with reachable _ ?D => set (dd := D) in * end.
  destruct (get_elementdata dd 19) as [e|] eqn:G; [|vm_compute in G; discriminate]. destruct (get_elementdata dd 17) as [ce|] eqn:GC; [|vm_compute in GC; discriminate].
  specialize (H dd 19 tp_default e 17 ce "current" "hello" R). vm_compute in G. inversion G; subst e. clear G. vm_compute in GC. inversion GC; subst ce. clear GC.
  destruct H as (f & H).
  - exists 0, "current", 0. vm_compute. auto.
  - vm_compute. reflexivity.
  - reflexivity.
  - apply sources_iff. vm_compute. reflexivity.
  - vm_compute. auto.
  - vm_compute. reflexivity.
  - reflexivity.
  - vm_compute. reflexivity.
  - reflexivity.
  - apply flow_text. constructor.
  - discriminate.
  - assert (X : doc_text fuel1 dd 19 tp_default = Ok "helo") by (vm_compute; reflexivity).
    discriminate (text_is_det dd 19 tp_default "hello" "helo" (ex_intro _ f H) (ex_intro _ fuel1 X)).
Qed.
Print Assumptions C39_text_class_refuted.
(* The class plays no role beyond having to exist ... *)
Theorem C39_class_ignored : forall d k tp tp' t, good_request d tp -> good_request d tp' -> tp_retain tp = tp_retain tp' -> text_is d k tp t -> text_is d k tp' t.
Proof. intros d k tp tp' t G G' E H. apply text_is_iff; [exact G'|]. rewrite <- E. apply text_is_iff; assumption. Qed.
Print Assumptions C39_class_ignored.
Lemma last_tc_keeps d l : forall c, last_tc d (Some c) l <> None.
Proof. induction l as [|y l IH]; intros c; cbn [last_tc]; [discriminate|]. destruct (tcb d y); apply IH. Qed.
Lemma last_tc_in d j c : get_elementdata d j = Some c -> e_type c = ET_TextContent -> forall l o, In (DElement j) l -> last_tc d o l <> None.
Proof.
  intros G T. induction l as [|x l IH]; intros o; [intros []|]. cbn [last_tc]. intros [->|I]; [|apply IH, I]. cbn [tcb]. rewrite G, T. apply last_tc_keeps.
Qed.
(* ... so the claim holds for elements with a single text content. Missing: elements with several. *)
Theorem C39_text_class_partial : forall d k tp e j ce t, reachable anything d -> good_request d tp -> get_elementdata d k = Some e ->
  p_textcontainer (props (e_type e)) = false -> p_printable (props (e_type e)) = true -> p_hidden (props (e_type e)) = false ->
  sources d (e_data e) [] ->
  In (DElement j) (e_data e) -> get_elementdata d j = Some ce -> e_type ce = ET_TextContent ->
  (forall j' ce', In (DElement j') (e_data e) -> get_elementdata d j' = Some ce' -> e_type ce' = ET_TextContent -> ce' = ce) ->
  t <> "" -> (text_is d k tp t <-> flow d (tp_retain tp) "" (e_data ce) t).
Proof.
  intros d k tp e j ce t R GR G C P Hd S I GC TC U NE. rewrite (C38_text_of_structure d k tp e t R GR G C P Hd).
  assert (TCC : p_textcontainer (props (e_type ce)) = true) by (rewrite TC; reflexivity).
  assert (LT : exists c, last_text_content d (e_data e) c).
  { destruct (last_tc d None (e_data e)) as [c|] eqn:LT; [exists c; apply last_tc_some, LT|]. destruct (last_tc_in d j ce GC TC _ _ I LT). }
  assert (LC : forall c, last_text_content d (e_data e) c -> c = ce) by (intros c (l1 & q & l2 & E & Gq & Tq & _); apply (U q c); auto; rewrite E; apply in_app_iff; right; left; reflexivity).
  split.
  - intros (cs & ps & SR & TP & Q). apply sources_iff in S, SR. rewrite <- S in SR. subst cs. inversion TP; subst ps. destruct Q as [(Q & _)|(_ & _ & c & L & HT)]; [destruct (Q eq_refl)|].
    apply LC in L. subst c. apply container_has_text; assumption.
  - intros F. exists [], []. split; [exact S|]. split; [constructor|]. right. split; [reflexivity|]. split; [exact NE|]. destruct LT as (c & L). exists c. split; [exact L|]. apply LC in L. subst c. apply container_has_text; assumption.
Qed.
Print Assumptions C39_text_class_partial.
(* sets that are not declared and classes that do not occur are errors *)
Theorem C39_unknown_class : forall d k tp dk c, get_elementdata d k <> None -> get_declaration_key_by_id d (index_id AT_TEXT (tp_set tp)) = Some dk -> tp_class tp = Some c ->
  (forall dec, get_declaration d dk = Some dec -> d_class_key dec c = None) -> forall fuel, doc_text fuel d k tp = Err EKey.
Proof.
  intros d k tp dk c G D C N fuel. unfold doc_text, element_text. destruct (get_elementdata d k); [|congruence]. rewrite D, C. cbn [expect rbind]. unfold doc_class_key. destruct (get_declaration d dk) as [dec|]; [rewrite (N dec eq_refl)|]; reflexivity.
Qed.
Print Assumptions C39_unknown_class.
Theorem C39_unknown_set : forall d k tp s, get_elementdata d k <> None -> tp_set tp = Some s -> get_declaration_key_by_id d (index_id AT_TEXT (Some s)) = None -> forall fuel, doc_text fuel d k tp = Err EEncode.
Proof. intros d k tp s G S D fuel. unfold doc_text, element_text. destruct (get_elementdata d k); [|congruence]. rewrite S, D. reflexivity. Qed.
Print Assumptions C39_unknown_set.
Example C39_nonvacuous : reachable anything ex_doc /\ good_request ex_doc tp_default /\
  (exists e ce, get_elementdata ex_doc 3 = Some e /\ plain e /\ sources ex_doc (e_data e) [] /\ In (DElement 1) (e_data e) /\ get_elementdata ex_doc 1 = Some ce /\
    e_type ce = ET_TextContent /\ (forall j' ce', In (DElement j') (e_data e) -> get_elementdata ex_doc j' = Some ce' -> e_type ce' = ET_TextContent -> ce' = ce)) /\
  doc_text 9 ex_doc 3 (mkTP (Some DEFAULT_TEXT_SET) (Some "ocr") false false) = Err EKey /\ doc_text 9 ex_doc 3 (mkTP (Some "other") (Some "current") false false) = Err EEncode.
Proof.
  split; [exact ex_reachable_any|]. split; [apply (ex_request false)|]. split; [|vm_compute; auto].
  eexists _, _. split; [vm_compute; reflexivity|]. split; [vm_compute; auto|]. split; [apply sources_iff; vm_compute; reflexivity|]. split; [vm_compute; auto|]. split; [vm_compute; reflexivity|]. split; [reflexivity|].
  intros j' ce' I G T. vm_compute in I. destruct I as [I|[I|[I|[]]]]; inversion I; subst j'; vm_compute in G; inversion G; subst ce'; try reflexivity; discriminate T.
Qed.

(* ================================================================ C40 *)
Definition with_retain (tp : textparams) (b : bool) : textparams := mkTP (tp_set tp) (tp_class tp) (tp_strict tp) b.
Lemma good_with_retain d tp b : good_request d tp -> good_request d (with_retain tp b).
Proof. intros H. exact H. Qed.
Theorem C40_only_adds_delimiters : forall d k tp, reachable anything d -> good_request d tp ->
  (forall t, text_is d k (with_retain tp false) t -> exists t', text_is d k (with_retain tp true) t' /\ adds_delimiters t t') /\
  (forall t', text_is d k (with_retain tp true) t' -> exists t, text_is d k (with_retain tp false) t /\ adds_delimiters t t') /\
  (text_fails d k (with_retain tp false) <-> text_fails d k (with_retain tp true)).
Proof.
  intros d k tp R GR. pose proof (reachable_resolves d R) as RS. split; [|split].
  - intros t H. apply text_is_iff in H; [|exact GR]. destruct H as (e & G & f & H). pose proof (text_sim d RS f e) as X. cbn [tp_retain with_retain] in H. rewrite H in X.
    destruct (text_by_key f d 0 0 false true e None) as [t'| | |] eqn:E; cbn in X; try contradiction. exists t'. split; [|apply X]. apply text_is_iff; [exact GR|]. exists e. split; [exact G|]. exists f. exact E.
  - intros t H. apply text_is_iff in H; [|exact GR]. destruct H as (e & G & f & H). pose proof (text_sim d RS f e) as X. cbn [tp_retain with_retain] in H. rewrite H in X.
    destruct (text_by_key f d 0 0 false false e None) as [t'| | |] eqn:E; cbn in X; try contradiction. exists t'. split; [|apply X]. apply text_is_iff; [exact GR|]. exists e. split; [exact G|]. exists f. exact E.
  - destruct (get_elementdata d k) as [e|] eqn:G.
    + rewrite !(text_fails_iff d k _ e) by (exact GR || exact G). cbn [tp_retain with_retain].
      split; intros (f & x & H); pose proof (text_sim d RS f e) as X; rewrite H in X; [destruct (text_by_key f d 0 0 false true e None) eqn:E|destruct (text_by_key f d 0 0 false false e None) eqn:E]; cbn in X; try contradiction; exists f; eauto.
    + unfold text_fails, doc_text. rewrite G. reflexivity.
Qed.
Print Assumptions C40_only_adds_delimiters.
Theorem C40_equal_if_spaced : forall d k tp t, reachable anything d -> good_request d tp ->
  (forall j e, get_elementdata d j = Some e -> e_attrib e AB_SPACE <> Some (A_Space false)) ->
  (text_is d k (with_retain tp false) t <-> text_is d k (with_retain tp true) t).
Proof.
  intros d k tp t R GR SP. rewrite !text_is_iff by exact GR. cbn [tp_retain with_retain]. pose proof (reachable_resolves d R) as RS.
  assert (SP' : forall j e, get_elementdata d j = Some e -> space_of e = true) by (intros j e G; specialize (SP j e G); rewrite <- space_attr in SP; destruct (space_of e); congruence).
  split; intros (e & G & f & H); exists e; (split; [exact G|]); exists f; rewrite <- H; [symmetry|]; apply text_spaced; assumption.
Qed.
Print Assumptions C40_equal_if_spaced.
(* "hello" without a space after it *)
Definition ex_glued : elementdata := e_with_text (e_attr ET_Word [A_Id "w.4"; A_Class "WORD"; A_Set "tokset"; A_Space false]) "hi".
Definition ex_glued_doc : document := match exec fuel1 ex_doc [OAddElementTo 10 ex_glued; OAddElementTo 10 (ex_word "w.5" "!" "punct")] with Some d => d | None => ex_doc end.
Lemma ex_glued_reachable : reachable normal ex_glued_doc.
Proof. eapply exec_reachable; [exact ex_reachable|]. unfold ex_glued_doc. destruct (exec fuel1 ex_doc _) eqn:E; [exact E|vm_compute in E; discriminate]. Qed.
Example C40_nonvacuous : reachable anything ex_glued_doc /\ good_request ex_glued_doc tp_default /\
  text_is ex_glued_doc 10 (with_retain tp_default false) "hello cruel world hi!" /\ text_is ex_glued_doc 10 (with_retain tp_default true) "hello cruel world hi !" /\
  (forall j e, get_elementdata ex_doc j = Some e -> e_attrib e AB_SPACE <> Some (A_Space false)).
Proof.
  split; [eapply reachable_mono; [exact normal_anything|exact ex_glued_reachable]|]. split; [exists 0, "current", 0; vm_compute; auto|]. split; [exists fuel1; vm_compute; reflexivity|]. split; [exists fuel1; vm_compute; reflexivity|].
  intros j e G. do 17 (destruct j as [|j]; [vm_compute in G; inversion G; subst e; vm_compute; discriminate|]). vm_compute in G. destruct j; discriminate.
Qed.

(* ================================================================ C41 *)
(* elements that are hidden or not printable have no text themselves *)
Theorem C41_silent_has_no_text : forall d k tp e, good_request d tp -> get_elementdata d k = Some e -> p_textcontainer (props (e_type e)) = false ->
  p_printable (props (e_type e)) = false \/ p_hidden (props (e_type e)) = true -> text_fails d k tp /\ forall t, ~ text_is d k tp t.
Proof.
  intros d k tp e GR G C PH. destruct (silent_no_text d (tp_retain tp) e C PH) as (A & B). split; [apply (text_fails_iff d k tp e GR G); exact A|].
  intros t H. apply text_is_iff in H; [|exact GR]. destruct H as (e' & G' & H). replace e' with e in H by congruence. exact (B t H).
Qed.
Print Assumptions C41_silent_has_no_text.
(* the text of an element is the same if its silent children are dropped *)
Theorem C41_silent_children_dropped : forall d tp e t, reachable anything d -> p_textcontainer (props (e_type e)) = false ->
  (has_text d (tp_retain tp) e t <-> has_text d (tp_retain tp) (without_silent d e) t).
Proof. intros d tp e t R C. apply without_silent_text; [apply reachable_resolves, R|exact C]. Qed.
Print Assumptions C41_silent_children_dropped.
(* The text of all elements is the same if the silent children of all elements are dropped. Missing: elements that inherit
   their delimiter from a silent child, and hidden words directly in text content; see below. *)
Definition prune (d : document) : document := doc_with_elements d (mkStore (map (option_map (without_silent d)) (st_items (doc_elements d))) (st_index (doc_elements d))).
Lemma prune_pruned d : pruned d (prune d).
Proof.
  split; [|reflexivity]. intros k. unfold prune, get_elementdata, st_get. cbn [doc_elements doc_with_elements st_items]. rewrite nth_error_map. destruct (nth_error (st_items (doc_elements d)) k) as [[e|]|]; reflexivity.
Qed.
Theorem C41_silent_elements_dropped_partial : forall d k tp t, reachable anything d -> no_hidden_in_text d -> no_silent_last d ->
  good_request d tp -> (text_is d k tp t <-> text_is (prune d) k tp t).
Proof.
  intros d k tp t R NH NL GR. pose proof (prune_pruned d) as PR. assert (GR' : good_request (prune d) tp) by exact GR. rewrite !text_is_iff by assumption. rewrite (pr_elements _ _ PR k). pose proof (reachable_resolves d R) as RS. split.
  - intros (e & G & H). rewrite G. exists (without_silent d e). split; [reflexivity|]. apply (pruned_text d _ _ RS PR NH NL); [exists k; exact G|exact H].
  - intros (e' & G & H). destruct (get_elementdata d k) as [e|] eqn:Ge; [|discriminate]. inversion G; subst e'. exists e. split; [reflexivity|]. apply (pruned_text d _ _ RS PR NH NL); [exists k; exact Ge|exact H].
Qed.
Print Assumptions C41_silent_elements_dropped_partial.
(* a sentence with a hidden word between two words, and a comment at its end *)
Definition ex_hidden : elementdata := e_with_text (e_attr ET_Hiddenword [A_Id "hw.1"; A_Class "HIDDEN"; A_Set "hidset"]) "secret".
Definition ex_comment : elementdata := e_push (e_attr ET_Comment []) (DText "remark").
Definition ex_hidden_doc : document := match exec fuel1 ex_doc [OAddElementTo 10 ex_hidden; OAddElementTo 10 (ex_word "w.5" "!" "punct"); OAddElementTo 10 ex_comment] with Some d => d | None => ex_doc end.
Lemma ex_hidden_reachable : reachable normal ex_hidden_doc.
Proof. eapply exec_reachable; [exact ex_reachable|]. unfold ex_hidden_doc. destruct (exec fuel1 ex_doc _) eqn:E; [exact E|vm_compute in E; discriminate]. Qed.
Definition no_hidden_in_textb (d : document) : bool :=
  forallb (fun o => match o with
    | Some e => negb (p_textcontainer (props (e_type e))) ||
        forallb (fun x => match x with DElement j => match get_elementdata d j with Some c => negb (p_hidden (props (e_type c))) | None => true end | _ => true end) (e_data e)
    | None => true end) (st_items (doc_elements d)).
Definition no_silent_lastb (d : document) : bool :=
  forallb (fun o => match o with
    | Some e => match p_textdelimiter (props (e_type e)), last_element d (e_data e) with None, Some c => negb (silent (e_type c)) | _, _ => true end
    | None => true end) (st_items (doc_elements d)).
Lemma stored_item d k e : get_elementdata d k = Some e -> In (Some e) (st_items (doc_elements d)).
Proof. unfold get_elementdata, st_get. destruct (nth_error _ k) as [o|] eqn:N; [|discriminate]. intros ->. eapply nth_error_In, N. Qed.
Lemma no_hidden_in_textb_spec d : no_hidden_in_textb d = true -> no_hidden_in_text d.
Proof.
  unfold no_hidden_in_textb. rewrite forallb_forall. intros H k e j c G C I Gc. specialize (H _ (stored_item _ _ _ G)). cbn in H. rewrite C in H. cbn [negb orb] in H. rewrite forallb_forall in H. specialize (H _ I). cbn in H.
  rewrite Gc in H. apply negb_true_iff, H.
Qed.
Lemma no_silent_lastb_spec d : no_silent_lastb d = true -> no_silent_last d.
Proof.
  unfold no_silent_lastb. rewrite forallb_forall. intros H k e c G D L. specialize (H _ (stored_item _ _ _ G)). cbn in H. rewrite D in H. apply last_element_some in L. rewrite L in H. apply negb_true_iff, H.
Qed.
Example C41_nonvacuous : reachable anything ex_hidden_doc /\ no_hidden_in_text ex_hidden_doc /\ no_silent_last ex_hidden_doc /\ good_request ex_hidden_doc tp_default /\
  text_is ex_hidden_doc 10 tp_default "hello cruel world !" /\ get_elementdata (prune ex_hidden_doc) 10 <> get_elementdata ex_hidden_doc 10 /\
  (exists e, get_elementdata ex_hidden_doc 18 = Some e /\ e_type e = ET_Hiddenword) /\ text_fails ex_hidden_doc 18 tp_default.
Proof.
  split; [eapply reachable_mono; [exact normal_anything|exact ex_hidden_reachable]|]. split; [apply no_hidden_in_textb_spec; vm_compute; reflexivity|]. split; [apply no_silent_lastb_spec; vm_compute; reflexivity|].
  split; [exists 0, "current", 0; vm_compute; auto|]. split; [exists fuel1; vm_compute; reflexivity|]. split; [vm_compute; discriminate|]. split; [eexists; vm_compute; auto|]. exists fuel1. eexists. vm_compute. reflexivity.
Qed.
(* a span inherits the delimiter of a hidden word at its end *)
Definition ex_hidden_last : elementdata := e_add_element (e_add_element (e_attr ET_Entity [A_Class "per"; A_Set "entset"]) ex_glued) ex_hidden.
Theorem C41_silent_delimiter_refuted : exists d k t t', reachable normal d /\ good_request d tp_default /\ no_hidden_in_text d /\
  text_is d k tp_default t /\ text_is (prune d) k tp_default t' /\ t <> t'.
Proof.
  destruct (exec fuel1 ex_doc [OAddElementTo 10 ex_hidden_last; OAddElementTo 10 (ex_word "w.5" "!" "punct")]) as [d|] eqn:E; [|vm_compute in E; discriminate].
  assert (R : reachable normal d) by (eapply exec_reachable; [exact ex_reachable|exact E]). vm_compute in E. inversion E; subst; clear E. eexists _, 10, _, _. split; [exact R|]. split; [exists 0, "current", 0; vm_compute; auto|].
  split; [apply no_hidden_in_textb_spec; vm_compute; reflexivity|]. split; [exists fuel1; vm_compute; reflexivity|]. split; [exists fuel1; vm_compute; reflexivity|discriminate].
Qed.
Print Assumptions C41_silent_delimiter_refuted.
(* a hidden word in text content makes the text of that content fail *)
Theorem C41_hidden_in_content_refuted : exists d k t, reachable normal d /\ good_request d tp_default /\ no_silent_last d /\
  text_fails d k tp_default /\ text_is (prune d) k tp_default t.
Proof.
  destruct (exec fuel1 ex_doc [OAddElementTo 10 (e_add_element (e_add_element (e_push (e_attr ET_TextContent []) (DText "a")) ex_hidden) (e_push (e_attr ET_TextMarkupString []) (DText "b")))]) as [d|] eqn:E; [|vm_compute in E; discriminate].
  assert (R : reachable normal d) by (eapply exec_reachable; [exact ex_reachable|exact E]). vm_compute in E. inversion E; subst; clear E. eexists _, 20, _. split; [exact R|]. split; [exists 0, "current", 0; vm_compute; auto|].
  split; [apply no_silent_lastb_spec; vm_compute; reflexivity|]. split; [exists fuel1; eexists; vm_compute; reflexivity|exists fuel1; vm_compute; reflexivity].
Qed.
Print Assumptions C41_hidden_in_content_refuted.

(* ================================================================ C62 *)
(* Full statement: the text of a text content element (or markup) is the concatenation of the text fragments in it. *)
Definition content_is_fragments_claim : Prop := forall d k tp e t, reachable normal d -> good_request d tp -> get_elementdata d k = Some e ->
  p_textcontainer (props (e_type e)) = true -> fragments d (e_data e) t -> text_is d k tp t.
(* Proved when the printable elements in it are markup. Missing: line breaks and other structure in text content. *)
Theorem C62_content_is_fragments_partial : forall d k tp e t, good_request d tp -> get_elementdata d k = Some e ->
  p_textcontainer (props (e_type e)) = true -> inline d (e_data e) -> (text_is d k tp t <-> fragments d (e_data e) t).
Proof.
  intros d k tp e t GR G C IL. rewrite (C38_text_of_content d k tp e t GR G C). rewrite (fragments_flow d (tp_retain tp) _ IL). split; [intros (s & F & ->); exact F|intros F; exists t; auto].
Qed.
Print Assumptions C62_content_is_fragments_partial.
Definition ex_markup : elementdata :=
  e_push (e_add_element (e_push (e_attr ET_TextContent []) (DText "a")) (e_push (e_attr ET_TextMarkupString []) (DText "b"))) (DText "c").
Example C62_nonvacuous : exists d e, exec fuel1 ex_doc [OAddElementTo 10 ex_markup] = Some d /\ good_request d tp_default /\ get_elementdata d 18 = Some e /\
  p_textcontainer (props (e_type e)) = true /\ inline d (e_data e) /\ length (e_data e) = 3 /\ text_is d 18 tp_default "abc".
Proof.
  destruct (exec fuel1 ex_doc [OAddElementTo 10 ex_markup]) as [d|] eqn:E; [|vm_compute in E; discriminate]. vm_compute in E. inversion E; subst; clear E.
  eexists _, _. split; [reflexivity|]. split; [exists 0, "current", 0; vm_compute; auto|]. split; [vm_compute; reflexivity|]. split; [reflexivity|]. split; [|split; [reflexivity|exists fuel1; vm_compute; reflexivity]].
  apply inl_other; [discriminate|]. eapply inl_child; [vm_compute; reflexivity|reflexivity|reflexivity| |]; repeat (apply inl_other; [discriminate|]); constructor.
Qed.
(* a line break in text content *)
Definition ex_break : elementdata := e_push (e_add_element (e_push (e_attr ET_TextContent []) (DText "hello")) (e_attr ET_Linebreak [])) (DText "world").
Theorem C62_content_is_fragments_refuted : ~ content_is_fragments_claim.
Proof.
  intros H. destruct (exec fuel1 ex_doc [OAddElementTo 10 ex_break]) as [d|] eqn:E; [|vm_compute in E; discriminate].
  assert (R : reachable normal d) by (eapply exec_reachable; [exact ex_reachable|exact E]). vm_compute in E. inversion E; subst; clear E.
  match type of R with reachable _ ?D => set (dd := D) in * end.
  assert (GR : good_request dd tp_default) by (exists 0, "current", 0; vm_compute; auto).
  destruct (get_elementdata dd 18) as [e|] eqn:G; [|vm_compute in G; discriminate]. assert (GG := G). vm_compute in GG. inversion GG; subst e. clear GG.
  specialize (H dd 18 tp_default _ "helloworld" R GR G eq_refl). destruct H as (f & H).
  - apply (frag_text dd "hello"). change "world" with ("" ++ "world")%string. eapply frag_child; [vm_compute; reflexivity|reflexivity|constructor|]. change "world" with ("world" ++ "")%string. constructor. constructor.
  - assert (X : text_fails dd 18 tp_default) by (exists fuel1; eexists; vm_compute; reflexivity).
    apply (text_fails_iff dd 18 tp_default _ GR G) in X. assert (Y : text_is dd 18 tp_default "helloworld") by (exists f; exact H). apply (text_is_iff dd 18 tp_default _ GR) in Y. destruct Y as (e' & G' & Y). rewrite G in G'. inversion G'; subst e'.
    apply no_text_ends in X. destruct X as (x & X). pose proof (ends_det _ _ _ (X 0 0 false) (has_text_ends _ _ _ _ Y 0 0 false)). discriminate.
Qed.
Print Assumptions C62_content_is_fragments_refuted.
