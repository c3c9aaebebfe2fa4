(* C69: the text of a document survives saving and loading. *)
From Coq Require Import String List Bool Arith NArith Lia.
From Verif Require Import Base BaseFacts Types TypesFacts SpecTable Attrib AttribFacts Element Store StoreFacts Metadata Document Select DocOps Text Xml Parser Serialiser History Spec
  FrameFacts InvFacts DocFacts Examples StoreThms InternFacts EncodeFacts PropsEncode LinkFacts TreeFacts ForestFacts SelSpec SelectFacts PropsLinks PropsQuery SerSpec PropsSer ParseSpec ParseFacts PropsParse PropsProv RoundFacts RoundProv RoundSpec RoundTree PropsRound PropsLoad RefFacts PropsTree PropsRefs
  SpanSpec SpanLinks PropsSpans ResaveSpec ResaveFacts PropsResave TextSpec TextFacts PropsText TextRound.
Import ListNotations.
Open Scope string_scope.
Open Scope list_scope.

Lemma pair_tree d d' (same' : elementdata -> elementdata -> Prop) : (forall e e', pair d d' e e' -> same' e e') -> forall par k k' n, same_tree (found_again d d') d d' par k k' n -> same_tree same' d d' par k k' n.
Proof. intros H. apply same_tree_map. intros par k k' n e e' S G G' _. apply H. exists par, k, k', n. auto. Qed.
(* ---------------------------------------------------------------- the same text *)
(* Every element that was written has, as loaded, the text it had before (or fails to have a text as before), for every
   request that both documents know. Missing for the full claim: requests that the loaded document does not know, because
   no element uses the class (see C69_request_kept_partial and C69_unused_class_refuted), and content that XML cannot hold
   (C69_blank_text_refuted). *)
Theorem C69_text_kept_partial : forall fuel fuel' O p d root e w indent d',
  tidy d -> get_elementdata d root = Some e -> (e_parent e <> None \/ root = 0) -> writable_doc d -> values_in_range O d -> props_ok normal p ->
  doc_xml fuel O d root = Ok w -> parse_document fuel' O p (reread indent w) = Ok d' ->
  exists n, same_tree (fun e e' => forall m tp, good_request d tp -> good_request d' tp -> element_text m d' e' tp = element_text m d e tp) d d' None root 0 n /\
    length (st_items (doc_elements d')) = n.
Proof.
  intros fuel fuel' O p d root e w indent d' T G P WD VR GP W L.
  assert (RN' : reachable normal d') by (eapply reach_load; [exact GP|apply load_ok_normal|exact L]).
  destruct (loaded_tree _ _ _ _ _ _ _ _ _ _ T G P WD VR GP W L) as (n & ST & LN). destruct (loaded_more _ _ _ _ _ _ _ _ _ _ T G P WD GP W L) as (inside & ks & NO & _ & _ & SL' & IDS).
  exists n. split; [|exact LN]. revert ST. intros ST0. pose proof ST0 as ST. revert ST. apply pair_tree. intros x x' PX m tp (dk & c & ck & A & B & C) (dk' & c' & ck' & A' & B' & C').
  unfold element_text. rewrite A, A', B. rewrite B in B'. injection B' as <-. cbn [expect rbind]. rewrite C, C'. cbn [rbind].
  apply (pair_text O d d' root e inside ks n (normal_any _ (tidy_reachable _ T)) (normal_any _ RN') (reachable_full _ RN') SL' G NO ST0 IDS). exact PX.
Qed.
Print Assumptions C69_text_kept_partial.
(* In particular the text of the whole: the file opens with the element that was written. *)
Theorem C69_document_text_partial : forall fuel fuel' O p d root e w indent d' m tp,
  tidy d -> get_elementdata d root = Some e -> (e_parent e <> None \/ root = 0) -> writable_doc d -> values_in_range O d -> props_ok normal p ->
  doc_xml fuel O d root = Ok w -> parse_document fuel' O p (reread indent w) = Ok d' ->
  good_request d tp -> good_request d' tp -> doc_text m d' 0 tp = doc_text m d root tp.
Proof.
  intros fuel fuel' O p d root e w indent d' m tp T G P WD VR GP W L Q Q'. destruct (C69_text_kept_partial _ _ _ _ _ _ _ _ _ _ T G P WD VR GP W L) as (n & ST & _).
  destruct (same_tree_key _ _ _ _ _ _ _ ST) as (x & x' & GX & GX' & _ & _ & SX & _). unfold doc_text. rewrite GX, GX'. apply SX; assumption.
Qed.
Print Assumptions C69_document_text_partial.

(* ---------------------------------------------------------------- requests that both documents know *)
(* some element of the tree under root, with the annotation type of text, has this set and this class *)
Definition class_in_use (d : document) (root : nat) (set : option string) (c : string) : Prop := exists k e, (k = root \/ ancestor d root k) /\ get_elementdata d k = Some e /\
  et_annotationtype (e_type e) = Some AT_TEXT /\ r_set d e = Ok set /\ r_class d e = Ok (Some c).
Lemma used_request d k e set c tp : reachable normal d -> get_elementdata d k = Some e -> et_annotationtype (e_type e) = Some AT_TEXT -> r_set d e = Ok set -> r_class d e = Ok (Some c) ->
  tp_set tp = set -> tp_class tp = Some c -> good_request d tp.
Proof.
  intros R G AT SE CL ES EC. destruct (reachable_full _ R) as (_ & VO & _ & EO). destruct (EO _ _ G) as (p & n & A & F & [R1 R2 R3 R4 R5 R6]). cbn in A.
  rewrite (rep_class d e p n A F) in CL. injection CL as CL. rewrite (rep_set d e p n A F) in SE. injection SE as SE. destruct (en_class n) as [ck|]; [|discriminate]. cbn [obind] in CL.
  destruct (en_dec n) as [dk|]; [|discriminate]. cbn [obind] in CL, SE. destruct (R1 dk eq_refl) as (dec & GD & TD). rewrite GD in CL, SE. cbn [obind] in CL, SE.
  assert (NF : e_type e <> ET_Feature) by (intros Q; rewrite Q in AT; discriminate). destruct (en_subset n) as [sk|]; [destruct (R4 sk eq_refl) as (Q & _); contradiction|].
  assert (CK : d_class_key dec c = Some ck).
  { destruct (VO _ _ GD) as (WC & _). unfold d_get_class, d_class_key in *. destruct (d_classes dec) as [s|]; [|discriminate]. cbn in *. destruct WC as (_ & _ & Hu). apply (Hu _ _ _ CL). reflexivity. }
  exists dk, c, ck. split; [|split; [exact EC|]].
  - apply get_by_id_declaration; [apply normal_any, R|]. exists dec. split; [exact GD|]. rewrite (TD _ AT), ES, SE. reflexivity.
  - unfold doc_class_key. rewrite GD, CK. reflexivity.
Qed.
(* A request for a class of text that some element written uses is answered by both documents, with the same text.
   Missing for the full claim: as for C54_references_partial, and vocabularies that are full. *)
Theorem C69_request_kept_partial : forall fuel fuel' O p d root e w indent d' tp c,
  tidy d -> get_elementdata d root = Some e -> (e_parent e <> None \/ root = 0) -> writable_doc d -> values_in_range O d -> plain_props d p -> provenance_complete d -> features_home d ->
  doc_xml fuel O d root = Ok w -> parse_document fuel' O p (reread indent w) = Ok d' -> room d' ->
  tp_class tp = Some c -> class_in_use d root (tp_set tp) c ->
  good_request d tp /\ good_request d' tp /\
  exists n, same_tree (fun e e' => forall m, element_text m d' e' tp = element_text m d e tp) d d' None root 0 n /\ length (st_items (doc_elements d')) = n.
Proof.
  intros fuel fuel' O p d root e w indent d' tp c T G P WD VR PP PC FH W L RM TC (k & x & IN & GX & AT & SE & CL).
  assert (RN' : reachable normal d') by (eapply reach_load; [apply PP|apply load_ok_normal|exact L]).
  assert (Q : good_request d tp) by (apply (used_request d k x (tp_set tp) c); auto using tidy_reachable).
  assert (Q' : good_request d' tp).
  { destruct (C54_references_partial _ _ _ _ _ _ _ _ _ _ T G P WD VR PP PC FH W L) as (n & ST & _). destruct (loaded_more _ _ _ _ _ _ _ _ _ _ T G P WD (proj1 PP) W L) as (inside & ks & NO & _).
    assert (IK : In k (root :: ks)). { destruct IN as [->|AN]; [left; reflexivity|right]. apply (below_in O d root e inside ks (C18_links_agree_partial d T) G NO k AN). }
    destruct (tree_in O d d' _ root e inside ks 0 n G NO ST k IK) as (par & k' & m & SK). destruct (same_tree_key _ _ _ _ _ _ _ SK) as (y & x' & GY & GX' & TY & _ & (SA & SR) & _). rewrite GX in GY. injection GY as <-.
    assert (MT : marked_tag d x) by (right; left; eauto). assert (NF : e_type x <> ET_Feature) by (intros Q0; rewrite Q0 in AT; discriminate).
    destruct SR as [((_ & NM) & _)|[(NM & _)|(_ & _ & RS & _)]]; [contradiction|contradiction|]. destruct SA as [((_ & NM) & _)|(_ & _ & RC & _)]; [contradiction|].
    apply (used_request d' k' x' (tp_set tp) c); auto; [congruence|rewrite RS; exact SE|]. apply RC; [exact RM|intros; contradiction|exact CL]. }
  split; [exact Q|]. split; [exact Q'|]. destruct (C69_text_kept_partial _ _ _ _ _ _ _ _ _ _ T G P WD VR (proj1 PP) W L) as (n & ST & LN). exists n. split; [|exact LN].
  revert ST. apply same_tree_map. intros par j j' i y y' _ _ _ SM m. apply SM; assumption.
Qed.
Print Assumptions C69_request_kept_partial.

(* ---------------------------------------------------------------- examples *)
Fixpoint belowb (n : nat) (d : document) (root k : nat) : bool :=
  Nat.eqb k root || match n with 0 => false | S n => match parent_of d k with Some p => belowb n d root p | None => false end end.
Lemma belowb_spec n d root : forall k, belowb n d root k = true -> k = root \/ ancestor d root k.
Proof.
  induction n as [|n IH]; intros k H; cbn [belowb] in H; apply orb_prop in H; destruct H as [H|H]; try (left; apply Nat.eqb_eq, H); [discriminate|].
  destruct (parent_of d k) as [p|] eqn:P; [|discriminate]. right. destruct (IH p H) as [->|A]; [apply anc_parent, P|eapply anc_up; eassumption].
Qed.
Definition text_eqb (r : res string) (s : string) : bool := match r with Ok x => String.eqb x s | _ => false end.
Lemma text_eqb_spec r s : text_eqb r s = true -> r = Ok s.
Proof. destruct r; try discriminate. intros H. apply String.eqb_eq in H. congruence. Qed.
Definition usesb (d : document) (k root : nat) (set : option string) (c : string) : bool :=
  belowb 9 d root k && match get_elementdata d k with
  | Some e => at_opt_eqb (et_annotationtype (e_type e)) (Some AT_TEXT) &&
              match r_set d e, set with Ok (Some x), Some y => String.eqb x y | Ok None, None => true | _, _ => false end &&
              match r_class d e with Ok (Some x) => String.eqb x c | _ => false end
  | None => false end.
Lemma usesb_spec d k root set c : usesb d k root set c = true -> class_in_use d root set c.
Proof.
  unfold usesb. intros H. apply andb_prop in H. destruct H as (B & H). destruct (get_elementdata d k) as [e|] eqn:G; [|discriminate]. apply andb_prop in H. destruct H as (H & C). apply andb_prop in H. destruct H as (A & S).
  exists k, e. split; [apply (belowb_spec 9), B|]. split; [exact G|]. split; [apply at_opt_eqb_eq, A|]. split.
  - destruct (r_set d e) as [[x|]| | |], set as [y|]; try discriminate; [apply String.eqb_eq in S; congruence|reflexivity].
  - destruct (r_class d e) as [[x|]| | |]; try discriminate. apply String.eqb_eq in C. congruence.
Qed.
(* the example document with two more words, the first without a space after it; its text states its class *)
Definition more_words : list op :=
  [OAddElementTo 10 (mkElem ET_Word [A_Id "w.4"; A_Space false] [DAddElement (mkElem ET_TextContent [A_Class "current"] [DText "."] None None)] None None);
   OAddElementTo 10 (mkElem ET_Word [A_Id "w.5"] [DAddElement (mkElem ET_TextContent [] [DText ")"] None None)] None None)].
Example C69_nonvacuous : exists d d' e, tidy d /\ writable_doc d /\ values_in_range rt_oracle d /\ plain_props d no_props /\ provenance_complete d /\ features_home d /\ loads_back 2 d d' /\ room d' /\
  get_elementdata d 0 = Some e /\ class_in_use d 0 (tp_set tp_default) "current" /\ doc_text fuel1 d' 0 tp_default = Ok "hello cruel world .)" /\ doc_text fuel1 d 15 tp_default = Ok "cruel world".
Proof.
  destruct (tree_case 2 more_words (fun d d' => all_elements d (fun e => writableb d (text_first (e_type e)) (e_data e)) && provenance_ok d && all_elements d (homeb d) && roomb d' && is_some (get_elementdata d 0) &&
    usesb d 17 0 (tp_set tp_default) "current" && text_eqb (doc_text fuel1 d' 0 tp_default) "hello cruel world .)" && text_eqb (doc_text fuel1 d 15 tp_default) "cruel world")) as (d & d' & T & V & L & P); [vm_compute; reflexivity|].
  apply andb_prop in P. destruct P as (P & P8). apply andb_prop in P. destruct P as (P & P7). apply andb_prop in P. destruct P as (P & P6). apply andb_prop in P. destruct P as (P & P5). apply andb_prop in P. destruct P as (P & P4).
  apply andb_prop in P. destruct P as (P & P3). apply andb_prop in P. destruct P as (P1 & P2). destruct (get_elementdata d 0) as [e|] eqn:G; [|discriminate]. exists d, d', e.
  split; [exact T|]. split; [intros k x GX; apply writableb_spec, (all_elements_spec _ _ P1 _ _ GX)|]. split; [exact V|]. split; [exact (no_props_plain _)|]. split; [apply provenance_ok_spec; exact P2|]. split; [apply homeb_spec; exact P3|]. split; [exact L|].
  split; [apply roomb_spec, P4|]. split; [exact G|]. split; [eapply usesb_spec, P6|]. split; apply text_eqb_spec; assumption.
Qed.
(* what a document that was saved and loaded says about its text, for the refutations *)
Lemma text_case ops P : match exec_careful fuel1 ex_doc ops with
  | Some d => match round_trip 2 d with
              | Some d' => all_elements d (fun e => forallb (in_rangeb rt_oracle) (e_attribs e)) && (all_elements d (fun e => writableb d (text_first (e_type e)) (e_data e)) && provenance_ok d && all_elements d (homeb d) && roomb d' && P d d')
              | None => false end
  | None => false end = true ->
  exists d d', tidy d /\ writable_doc d /\ values_in_range rt_oracle d /\ provenance_complete d /\ features_home d /\ loads_back 2 d d' /\ room d' /\ P d d' = true.
Proof.
  intros H. apply (tree_case 2 ops (fun d d' => all_elements d (fun e => writableb d (text_first (e_type e)) (e_data e)) && provenance_ok d && all_elements d (homeb d) && roomb d' && P d d')) in H. destruct H as (d & d' & T & V & L & Q).
  apply andb_prop in Q. destruct Q as (Q & Q5). apply andb_prop in Q. destruct Q as (Q & Q4). apply andb_prop in Q. destruct Q as (Q & Q3). apply andb_prop in Q. destruct Q as (Q1 & Q2). exists d, d'.
  split; [exact T|]. split; [intros k x GX; apply writableb_spec, (all_elements_spec _ _ Q1 _ _ GX)|]. split; [exact V|]. split; [apply provenance_ok_spec; exact Q2|]. split; [apply homeb_spec; exact Q3|]. split; [exact L|]. split; [apply roomb_spec, Q4|exact Q5].
Qed.
(* A document built in memory answers requests for the default class of text, "current", even if no element states it.
   After saving and loading it refuses them: the default request for the text of the document is an error. *)
Theorem C69_default_class_refuted : exists d d', tidy d /\ writable_doc d /\ values_in_range rt_oracle d /\ provenance_complete d /\ features_home d /\ loads_back 2 d d' /\ room d' /\
  doc_text fuel1 d 0 tp_default = Ok "hello cruel world" /\ doc_text fuel1 d' 0 tp_default = Err EKey.
Proof.
  destruct (text_case [] (fun d d' => text_eqb (doc_text fuel1 d 0 tp_default) "hello cruel world" && match doc_text fuel1 d' 0 tp_default with Err EKey => true | _ => false end)) as (d & d' & T & WD & V & PC & FH & L & RM & P); [vm_compute; reflexivity|].
  apply andb_prop in P. destruct P as (P1 & P2). exists d, d'. repeat (split; [assumption|]). split; [apply text_eqb_spec, P1|]. destruct (doc_text fuel1 d' 0 tp_default) as [|[]| |]; try discriminate. reflexivity.
Qed.
Print Assumptions C69_default_class_refuted.
(* The same for a class that only an element detached in the meantime had. *)
Theorem C69_unused_class_refuted : exists d d', tidy d /\ writable_doc d /\ values_in_range rt_oracle d /\ provenance_complete d /\ features_home d /\ loads_back 2 d d' /\ room d' /\
  let tp := mkTP (Some DEFAULT_TEXT_SET) (Some "old") false false in doc_text fuel1 d 0 tp = Ok "hello cruel world" /\ doc_text fuel1 d' 0 tp = Err EKey.
Proof.
  destruct (text_case [OAddElementTo 10 (mkElem ET_TextContent [A_Id "t.9"; A_Class "old"] [DText "hi"] None None); ODetach 17]
    (fun d d' => let tp := mkTP (Some DEFAULT_TEXT_SET) (Some "old") false false in text_eqb (doc_text fuel1 d 0 tp) "hello cruel world" && match doc_text fuel1 d' 0 tp with Err EKey => true | _ => false end)) as (d & d' & T & WD & V & PC & FH & L & RM & P); [vm_compute; reflexivity|].
  apply andb_prop in P. destruct P as (P1 & P2). exists d, d'. repeat (split; [assumption|]). cbv zeta. split; [apply text_eqb_spec, P1|]. destruct (doc_text fuel1 d' 0 _) as [|[]| |]; try discriminate. reflexivity.
Qed.
Print Assumptions C69_unused_class_refuted.
(* Text that consists of white space only is lost. *)
Theorem C69_blank_text_refuted : exists d d', tidy d /\ values_in_range rt_oracle d /\ provenance_complete d /\ features_home d /\ loads_back 2 d d' /\ room d' /\
  doc_text fuel1 d 0 tp_default = Ok "hello cruel world   now" /\ doc_text fuel1 d' 0 tp_default = Ok "hello cruel world now".
Proof.
  destruct (tree_case 2 [OAddElementTo 10 (mkElem ET_Word [A_Id "w.4"] [DAddElement (mkElem ET_TextContent [A_Class "current"] [DText " "] None None)] None None);
      OAddElementTo 10 (mkElem ET_Word [A_Id "w.5"] [DAddElement (mkElem ET_TextContent [] [DText "now"] None None)] None None)]
    (fun d d' => provenance_ok d && all_elements d (homeb d) && roomb d' && text_eqb (doc_text fuel1 d 0 tp_default) "hello cruel world   now" && text_eqb (doc_text fuel1 d' 0 tp_default) "hello cruel world now")) as (d & d' & T & V & L & P); [vm_compute; reflexivity|].
  apply andb_prop in P. destruct P as (P & P5). apply andb_prop in P. destruct P as (P & P4). apply andb_prop in P. destruct P as (P & P3). apply andb_prop in P. destruct P as (P1 & P2). exists d, d'.
  split; [exact T|]. split; [exact V|]. split; [apply provenance_ok_spec; exact P1|]. split; [apply homeb_spec; exact P2|]. split; [exact L|]. split; [apply roomb_spec, P3|]. split; apply text_eqb_spec; assumption.
Qed.
Print Assumptions C69_blank_text_refuted.
