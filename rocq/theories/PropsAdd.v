(* C65: adding a well-formed element succeeds. *)
From Coq Require Import String List Bool Arith NArith Lia.
From Verif Require Import Base BaseFacts Types TypesFacts SpecTable Attrib AttribFacts Element Store StoreFacts Metadata Document Select DocOps Xml Parser History Spec FrameFacts InvFacts DocFacts StoreThms InternFacts EncodeFacts PropsEncode LinkFacts TreeFacts ForestFacts PropsLinks SelSpec SelectFacts PropsSelect NoPanic Returns PropsPanic Examples ValidFacts PropsValid PropsText ParseSpec ParseFacts PropsParse PropsLoad WellSpec LoadOk PropsWell AddOk.
Import ListNotations.
Open Scope string_scope.
Open Scope list_scope.

(* ---------------------------------------------------------------- what annotate does before it adds *)
Lemma addable_known sets (k1 k2 : string -> Prop) e : (forall id, k1 id -> k2 id) -> addable sets k1 e -> addable sets k2 e.
Proof.
  intros H. induction e as [e IH] using elem_ind. intros A. inversion A as [e' A1 A2 A3 A4]; subst. constructor; [exact A1| |exact A3|].
  - intros c I. rewrite Forall_forall in IH. specialize (IH _ I). cbn in IH. apply IH, A2, I.
  - intros c I T. destruct (A4 c I T) as (S & ID & K). split; [exact S|]. split; [exact ID|]. intros id J. apply H, K, J.
Qed.
Lemma check_passes d p pe e : get_elementdata d p = Some pe -> may_contain (e_type pe) (e_type e) -> check_element_addable d p e = Ok tt.
Proof. intros G M. apply C47_check_exact. eauto. Qed.
Lemma sel_first_quiet d p : forall fuel st x, sel_first fuel d p st <> Err x.
Proof.
  induction fuel as [|f IH]; intros st x; cbn [sel_first]; [discriminate|]. destruct (sel_step d p st) as [i st'|st'|st'|]; try discriminate; [|apply IH].
  destruct (si_data i) as [s|k|s|k|e]; try apply IH; destruct (get_elementdata d k); discriminate.
Qed.
Lemma layer_key_quiet fuel d k t lt set x : at_layertype t = Some lt -> get_layer_key fuel d k t set <> Err x.
Proof.
  intros L. unfold get_layer_key. rewrite L. cbn [ok_or rbind]. destruct (from_query d _) as [s|y| |] eqn:E; cbn [rbind]; try discriminate; try (destruct set; discriminate E).
  destruct (get_elementdata d k) as [e|]; [|discriminate]. destruct (e_key e) as [own|]; cbn [expect rbind]; [|discriminate].
  unfold select_first. destruct (sel_first _ _ _ _) as [[j|]|y| |] eqn:SF; cbn [rbind]; try discriminate. exfalso. apply (sel_first_quiet _ _ _ _ _ SF).
Qed.
Lemma span_plain t : In t (group_elementtypes EG_Span) -> t <> ET_Feature /\ t <> ET_WordReference.
Proof. intros I. apply span_member in I. destruct t; vm_compute in I; split; congruence. Qed.
Lemma layer_plain t lt : at_layertype t = Some lt -> lt <> ET_Feature /\ lt <> ET_WordReference.
Proof. destruct t; cbn; intros H; try discriminate; injection H as <-; split; discriminate. Qed.
Lemma fits_plain sets d p e : get_elementdata d p <> None -> e_type e <> ET_Feature -> e_type e <> ET_WordReference -> fits_under sets d p e.
Proof. intros G A B. destruct (get_elementdata d p) as [pe|] eqn:E; [|congruence]. exists pe. split; [exact E|]. split; intros X; contradiction. Qed.

Section Annotates.
Context (sets : list (AnnotationType * option string)).
Lemma fine_add_checked fuel d p pe e : built e -> addable sets (has_element d) e -> full_ok d -> affordable sets d -> fresh_for d e -> get_elementdata d p = Some pe -> may_contain (e_type pe) (e_type e) -> fits_under sets d p e ->
  (N.of_nat (sh_len d + size e) <= max_element + 1)%N -> fine sets (add_checked fuel d p e).
Proof.
  intros B AD FU AF FR G MC FI N. unfold add_checked. rewrite (check_passes _ _ _ _ G MC). cbn [sbind]. apply fine_add_element_to; assumption.
Qed.
Lemma layer_size lt s : size (new_layer lt (Some s)) = 1. Proof. reflexivity. Qed.
Lemma layer_fresh d lt s : fresh_for d (new_layer lt (Some s)).
Proof. split; [constructor; cbn; try reflexivity; intros; try contradiction; intros []|]. split; [constructor|intros id []]. Qed.
Lemma layer_addable known lt s b : et_annotationtype lt = Some b -> In (b, Some s) sets -> addable sets known (new_layer lt (Some s)).
Proof.
  intros E I. constructor; cbn; [|intros c []|intros c []|intros c []]. intros a x A G. rewrite E in A. injection A as <-. destruct x as [x|]; cbn in G; [destruct G as [G|[]]; injection G as <-; exact I|exfalso; apply (G s); left; reflexivity].
Qed.
Lemma fine_in_layer fuel d lo ho he t lt b s e : reachable normal d -> built e -> addable sets (has_element d) e -> full_ok d -> affordable sets d -> fresh_for d e -> In (e_type e) (group_elementtypes EG_Span) ->
  et_annotationtype (e_type e) = Some t -> at_layertype t = Some lt -> et_annotationtype lt = Some b -> In (b, Some s) sets -> get_elementdata d ho = Some he -> may_contain (e_type he) lt ->
  (N.of_nat (sh_len d + S (size e)) <= max_element + 1)%N -> fine sets (add_in_layer fuel d lo ho t lt (Some s) e).
Proof.
  intros R B AD FU AF FR SP AT LT BT IS GH MH N. destruct (span_plain _ SP) as (NF & NW). destruct (layer_plain _ _ LT) as (LF & LW).
  assert (MC : may_contain lt (e_type e)) by (apply accepts_type_spec; eapply layer_accepts; [apply span_member, SP|exact AT|exact LT]).
  unfold add_in_layer. fold (new_layer lt (Some s)). apply fine_pure; [exact AF|intros x; eapply layer_key_quiet, LT|]. intros [lk|] LK.
  - cbn [sbind]. destruct (layer_key_type _ _ _ _ _ _ _ (reachable_mono _ _ _ normal_anything R) LT LK) as (qe & GQ & TQ). rewrite (check_passes d lk qe e GQ) by (rewrite TQ; exact MC). cbn [sbind].
    apply fine_add_element_to; try assumption; [|lia]. apply fits_plain; [congruence|exact NF|exact NW].
  - apply fine_bind.
    + rewrite (check_passes d ho he (new_layer lt (Some s)) GH) by (rewrite new_layer_type; exact MH). cbn [sbind].
      apply fine_add_element_to; [apply layer_built|eapply layer_addable; eassumption|exact FU|exact AF|apply layer_fresh| |rewrite layer_size; lia]. apply fits_plain; [congruence|rewrite new_layer_type; exact LF|rewrite new_layer_type; exact LW].
    + intros d2 lk A AF2. apply sbind_ok in A. destruct A as (d2' & u & C & A). injection C as <- C. assert (HO : get_elementdata d ho <> None) by congruence. assert (PL : ho < sh_len d) by (apply sh_exists, HO).
      destruct (added_to _ _ _ _ _ _ (layer_fresh d lt s) HO A) as (_ & (ke & GK & TK) & _ & _ & IG). destruct (add_element_to_tree _ _ _ _ _ _ PL (layer_fresh d lt s) A) as (_ & LEN & _).
      pose proof (add_element_to_prims normal fuel d ho (new_layer lt (Some s)) ltac:(apply layer_built)) as P. rewrite A in P. cbn [fst] in P.
      rewrite (check_passes d2 lk ke e GK) by (rewrite TK, new_layer_type; exact MC). cbn [sbind]. apply fine_add_element_to; [exact B| |eapply full_prims; eassumption|exact AF2|eapply fresh_after; eassumption| |rewrite LEN, layer_size; lia].
      * eapply addable_known; [|exact AD]. intros id H. apply (has_id_le _ _ id (prims_doc_le _ _ P) H).
      * apply fits_plain; [congruence|exact NF|exact NW].
Qed.
Lemma ancestors_quiet d s : forall fuel k x, ancestors fuel d s k <> Err x.
Proof.
  induction fuel as [|f IH]; intros k x; cbn [ancestors]; [discriminate|]. destruct (get_elementdata d k) as [e|]; [|discriminate]. destruct (e_parent e) as [p|]; [|discriminate].
  destruct (matches s d (DElement p)) as [[]| | |]; try discriminate; destruct (get_elementdata d p); try discriminate; [|apply IH]. specialize (IH p). destruct (ancestors f d s p) as [l|y| |]; cbn [rbind]; try discriminate. exfalso. apply (IH y). reflexivity.
Qed.
Lemma keys_of_quiet d l x : keys_of d l <> Err x.
Proof.
  revert x. induction l as [|k l IH]; intros x; cbn [keys_of]; [discriminate|]. pose proof (key_of_quiet d k) as Q. destruct (key_of d k) as [j|y| |]; cbn [rbind]; try discriminate; [|exfalso; apply (Q y); reflexivity].
  destruct (keys_of d l) as [m|y| |]; cbn [rbind]; try discriminate. exfalso. apply (IH y). reflexivity.
Qed.
Lemma common_quiet fuel d s l x : forall r, common_loop fuel d s r l <> Err x.
Proof.
  induction l as [|k l IH]; intros r; cbn [common_loop]; [discriminate|]. destruct (get_elementdata d k) as [e|]; [|apply IH]. destruct (e_key e) as [own|]; cbn [expect rbind]; [|discriminate].
  pose proof (ancestors_quiet d s fuel own) as Q. destruct (ancestors fuel d s own) as [a|y| |]; cbn [rbind]; try discriminate; [|exfalso; apply (Q y); reflexivity].
  pose proof (keys_of_quiet d a) as Q2. destruct (keys_of d a) as [m|y| |]; cbn [rbind]; try discriminate; [apply IH|exfalso; apply (Q2 y); reflexivity].
Qed.
Lemma ancestors_find d s h : matches s d (DElement h) = Ok true -> forall fuel k l, ancestor d h k -> ancestors fuel d s k = Ok l -> In h l.
Proof.
  intros M. induction fuel as [|f IH]; intros k l A H; [discriminate|]. cbn [ancestors] in H.
  assert (Q : exists p, parent_of d k = Some p /\ (p = h \/ ancestor d h p)) by (inversion A; subst; eauto). destruct Q as (p & P & Q). unfold parent_of in P. destruct (get_elementdata d k) as [e|]; [|discriminate]. cbn in P. rewrite P in H.
  destruct Q as [->|Q].
  - rewrite M in H. destruct (get_elementdata d h); [|discriminate]. apply rbind_ok in H. destruct H as (l' & _ & H). injection H as <-. left. reflexivity.
  - destruct (matches s d (DElement p)) as [[]| | |]; try discriminate; destruct (get_elementdata d p); try discriminate.
    + apply rbind_ok in H. destruct H as (l' & E & H). injection H as <-. right. eapply IH; eassumption.
    + eapply IH; eassumption.
Qed.
Lemma common_find fuel d s h ks l : reachable anything d -> matches s d (DElement h) = Ok true -> (forall k, In k ks -> get_elementdata d k <> None /\ ancestor d h k) ->
  forall r, (In h r \/ r = [] /\ ks <> []) -> common_loop fuel d s r ks = Ok l -> In h l.
Proof.
  intros R M. induction ks as [|k ks IH]; intros A r I H; cbn [common_loop] in H.
  - destruct I as [I|(_ & X)]; [|congruence]. injection H as <-. exact I.
  - destruct (A k (or_introl eq_refl)) as (G & AN). destruct (get_elementdata d k) as [e|] eqn:GE; [|congruence]. apply rbind_ok in H. destruct H as (own & EK & H). apply rbind_ok in H. destruct H as (a & AE & H). apply rbind_ok in H. destruct H as (a' & KE & H).
    apply (keys_of_ok d _ _ R) in KE. subst a'. assert (own = k). { pose proof (reachable_ok _ _ anything_ok R) as (((_ & K & _) & _) & _). rewrite (K k e GE) in EK. cbn in EK. congruence. } subst own.
    pose proof (ancestors_find d s h M _ _ _ AN AE) as IA. eapply IH; [intros k' I'; apply A; right; exact I'| |exact H]. left. destruct I as [I|(-> & _)]; [|exact IA].
    destruct r as [|r0 r]; [destruct I|]. apply filter_In. split; [exact I|]. apply mem_nat_spec, IA.
Qed.
End Annotates.

(* ================================================================ C65 *)
(* the call succeeds: from some fuel on it returns a key *)
Definition succeeds (f : nat -> document * res nat) : Prop := exists m d k, forall fuel, m <= fuel -> f fuel = (d, Ok k).
(* the document has room for n elements and for declarations of all [sets] it does not have yet *)
Definition has_room (sets : list (AnnotationType * option string)) (d : document) (n : nat) : Prop := exists new,
  (forall a s, In (a, s) sets -> declares d a s \/ In (a, s) new) /\
  (N.of_nat (length (st_items (doc_decls d)) + length new) <= 2 ^ 16)%N /\ (N.of_nat (length (st_items (doc_elements d)) + n) <= 2 ^ 32)%N.
(* the stored elements that a new span annotation refers to *)
Definition spans (d : document) (e : elementdata) (k : nat) : Prop :=
  exists c id, In (DAddElement c) (e_data e) /\ e_type c = ET_WordReference /\ In (A_Idref id) (e_attribs c) /\ get_element_key_by_id d id = Some k.
(* Element h can hold a layer of this type: its specification lists the layer type or the group of all layers. *)
Definition holds_layer (t lt : ElementType) : Prop := In (AcceptElementGroup EG_Layer) (p_accepted_data (props t)) \/ In (AcceptElementType lt) (p_accepted_data (props t)).
(* What annotating from element p needs: for a span annotation made from a word (or another element that can be referred to),
   a structure element around all it refers to that can hold its layer; for one made from another structure element, that
   this element can hold the layer; for anything else, that p accepts it. *)
Inductive can_annotate (sets : list (AnnotationType * option string)) (d : document) (p : nat) (e : elementdata) : Prop :=
  | can_inline pe : get_elementdata d p = Some pe -> may_contain (e_type pe) (e_type e) -> fits_under sets d p e ->
      (In (e_type e) (group_elementtypes EG_Span) -> p_wrefable (props (e_type pe)) = false /\ ~ In (e_type pe) (group_elementtypes EG_Structure) /\ exists lt, layer_type e lt) ->
      can_annotate sets d p e
  | can_layer lt b s pe : In (e_type e) (group_elementtypes EG_Span) -> layer_type e lt -> chosen_set d e s -> et_annotationtype lt = Some b -> In (b, Some s) sets ->
      get_elementdata d p = Some pe -> p_wrefable (props (e_type pe)) = false -> In (e_type pe) (group_elementtypes EG_Structure) -> may_contain (e_type pe) lt ->
      can_annotate sets d p e
  | can_span lt b s pe h he k : In (e_type e) (group_elementtypes EG_Span) -> layer_type e lt -> chosen_set d e s -> et_annotationtype lt = Some b -> In (b, Some s) sets ->
      get_elementdata d p = Some pe -> p_wrefable (props (e_type pe)) = true ->
      spans d e k -> get_elementdata d h = Some he -> In (e_type he) (group_elementtypes EG_Structure) -> holds_layer (e_type he) lt -> (forall k, spans d e k -> ancestor d h k) ->
      can_annotate sets d p e.

Lemma room_full sets d n : tidy d -> has_room sets d n -> full_ok d /\ affordable sets d /\ (N.of_nat (sh_len d + n) <= max_element + 1)%N.
Proof.
  intros T (new & SE & LD & LN). assert (FU : full_ok d) by (apply reachable_full, tidy_reachable, T). split; [exact FU|]. split; [|exact LN].
  exists new. split; [|exact LD]. intros a s I. destruct (SE a s I) as [D|D]; [left; apply declares_declared; [apply FU|exact D]|right; exact D].
Qed.
Lemma fine_succeeds sets f : returns f -> (forall fuel, fine sets (f fuel)) -> succeeds f.
Proof.
  intros (n & d & v & H & V) F. destruct V as [(k & ->)|(x & ->)]; [exists n, d, k; exact H|]. exfalso. destruct (F n) as (Q & _). rewrite (H n (Nat.le_refl n)) in Q. apply (Q x). reflexivity.
Qed.
Lemma span_keys_spec d : forall l, (forall k, ~ In (DElement k) l) -> (forall c, In (DAddElement c) l -> e_type c = ET_WordReference -> refers_known (has_element d) (e_attribs c)) ->
  (forall k, In k (span_keys_loop d l) -> exists c id, In (DAddElement c) l /\ e_type c = ET_WordReference /\ In (A_Idref id) (e_attribs c) /\ get_element_key_by_id d id = Some k) /\
  ((exists c, In (DAddElement c) l /\ e_type c = ET_WordReference) -> span_keys_loop d l <> []).
Proof.
  assert (FI : forall l, (exists id, In (A_Idref id) l) -> exists id, find_attrib l AB_IDREF = Some (A_Idref id) /\ In (A_Idref id) l).
  { induction l as [|a l IH]; intros (id & I); [destruct I|]. destruct a; try (destruct I as [I|I]; [discriminate I|]; destruct (IH (ex_intro _ id I)) as (x & X & Y); exists x; split; [exact X|right; exact Y]). eexists. split; [reflexivity|left; reflexivity]. }
  induction l as [|x l IH]; intros NE WR; [split; [intros k []|intros (c & [] & _)]|].
  destruct (IH (fun k I => NE k (or_intror I)) (fun c I => WR c (or_intror I))) as (A & B). clear IH.
  assert (SKIP : (forall c, x = DAddElement c -> e_type c <> ET_WordReference) -> span_keys_loop d (x :: l) = span_keys_loop d l ->
    (forall k, In k (span_keys_loop d (x :: l)) -> exists c id, In (DAddElement c) (x :: l) /\ e_type c = ET_WordReference /\ In (A_Idref id) (e_attribs c) /\ get_element_key_by_id d id = Some k) /\
    ((exists c, In (DAddElement c) (x :: l) /\ e_type c = ET_WordReference) -> span_keys_loop d (x :: l) <> [])).
  { intros N ->. split; [intros k I; destruct (A k I) as (c & id & Q & R); exists c, id; split; [right; exact Q|exact R]|]. intros (c & [->|I] & T); [exfalso; eapply N; [reflexivity|exact T]|apply B; eauto]. }
  destruct x as [s|k|s|k|c]; try (apply SKIP; [discriminate|reflexivity]); [exfalso; apply (NE k); left; reflexivity|].
  destruct (et_eqb_spec (e_type c) ET_WordReference) as [T|N]; [|apply SKIP; [intros c' E; injection E as <-; exact N|cbn [span_keys_loop]; destruct (e_type c); try reflexivity; congruence]].
  destruct (WR c (or_introl eq_refl) T) as (EX & KN). destruct (FI _ EX) as (id & F & I). pose proof (KN _ I) as HK. unfold has_element in HK.
  cbn [span_keys_loop]. unfold e_attrib. rewrite T, F. destruct (get_element_key_by_id d id) as [j|] eqn:EJ; [|congruence]. split; [|discriminate].
  intros k [<-|I']; [exists c, id; split; [left; reflexivity|auto]|]. destruct (A k I') as (c' & id' & Q & R). exists c', id'. split; [right; exact Q|exact R].
Qed.
Lemma matches_structure d s k e : from_query d structure_query = Ok s -> get_elementdata d k = Some e -> In (e_type e) (group_elementtypes EG_Structure) -> matches s d (DElement k) = Ok true.
Proof.
  intros Q G I. injection Q as <-. cbn -[group_contains]. rewrite G. assert (C : group_contains EG_Structure (e_type e) = true) by (apply group_in, I). cbn -[group_contains]. rewrite C. reflexivity.
Qed.
Lemma accepted_eqb_spec a b : accepted_eqb a b = true -> a = b.
Proof. destruct a, b; cbn; try discriminate; intros H; match goal with Q : et_eqb ?x ?y = true |- _ => destruct (et_eqb_spec x y) | Q : eg_eqb ?x ?y = true |- _ => destruct (eg_eqb_spec x y) end; congruence. Qed.
Lemma suitable_spec d lt k e : get_elementdata d k = Some e -> suitable d lt k = true <-> holds_layer (e_type e) lt.
Proof.
  intros G. unfold suitable, holds_layer. rewrite G, orb_true_iff, !existsb_exists. split.
  - intros [(x & I & E)|(x & I & E)]; apply accepted_eqb_spec in E; subst x; auto.
  - intros [I|I]; [left|right]; (eexists; split; [exact I|]); cbn; [reflexivity|destruct (et_eqb_spec lt lt); congruence].
Qed.
Lemma holds_contains t lt : In lt (group_elementtypes EG_Layer) -> holds_layer t lt -> may_contain t lt.
Proof. intros L [H|H]; [right; exists EG_Layer; auto|left; exact H]. Qed.

Lemma fine_annotate sets fuel d p e : tidy d -> built e -> fresh_for d e -> addable sets (has_element d) e -> has_room sets d (S (size e)) -> can_annotate sets d p e -> fine sets (annotate fuel d p e).
Proof.
  intros T B FR AD RO CA. destruct (room_full _ _ _ T RO) as (FU & AF & N). pose proof (tidy_reachable _ T) as R. assert (RA : reachable anything d) by (eapply reachable_mono; [exact normal_anything|exact R]).
  assert (SETS : forall s, chosen_set d e s -> forall t, et_annotationtype (e_type e) = Some t -> (let? x := e_set e in match x with Some y => Ok (Some y) | None => match get_default_set d t with Some y => Ok (Some y) | None => Err EIncomplete end end) = Ok (Some s)).
  { intros s [->|(-> & t' & E & D)] t AT; cbn [rbind]; [reflexivity|]. replace t with t' by congruence. rewrite D. reflexivity. }
  destruct CA as [pe G MC FI SP|lt b s pe SP (t & AT & LT) CS BT IS G NW ST MC|lt b s pe h he k SP (t & AT & LT) CS BT IS G NW SK GH ST HL AN]; unfold annotate; rewrite G.
  - assert (F : fine sets (add_checked fuel d p e)) by (eapply fine_add_checked; try eassumption; lia).
    destruct (group_contains EG_Span (e_type e)) eqn:GS; [|exact F]. destruct SP as (NW & NS & lt & t & AT & LT); [apply group_in, GS|].
    rewrite AT. cbn [expect sbind]. rewrite LT. cbn [ok_or sbind]. rewrite NW. cbn [negb orb andb]. assert (NS' : group_contains EG_Structure (e_type pe) = false) by (apply not_true_iff_false; intros X; apply NS, group_in, X). rewrite NS'. exact F.
  - rewrite (proj2 (group_in EG_Span (e_type e)) SP). rewrite AT. cbn [expect sbind]. rewrite LT. cbn [ok_or sbind]. rewrite NW, (proj2 (group_in EG_Structure (e_type pe)) ST). cbn [negb orb andb].
    rewrite (SETS s CS t AT). cbn [sbind]. eapply fine_in_layer; try eassumption. 
  - rewrite (proj2 (group_in EG_Span (e_type e)) SP). rewrite AT. cbn [expect sbind]. rewrite LT. cbn [ok_or sbind]. rewrite NW. cbn [negb orb andb]. rewrite (SETS s CS t AT). cbn [sbind].
    inversion AD as [e' _ _ _ WR]; subst. destruct FR as (NE & FR'). inversion NE as [e' _ NK _ _]; subst.
    destruct (span_keys_spec d (e_data e) NK (fun c I T' => proj2 (WR c I T'))) as (K1 & K2). fold (get_span_keys d e) in K1, K2.
    assert (NN : get_span_keys d e <> []) by (apply K2; destruct SK as (c & id & I & TC & _); eauto). destruct (get_span_keys d e) as [|k0 ks]; [congruence|].
    destruct (from_query d structure_query) as [sel| | |] eqn:FQ; try (vm_compute in FQ; discriminate FQ). cbn [unwrap].
    destruct (common_ancestors fuel d sel (k0 :: ks)) as [anc|x| |] eqn:CM; [|exfalso; eapply common_quiet, CM|split; [discriminate|exact AF]|split; [discriminate|exact AF]].
    assert (IN : In h anc).
    { eapply (common_find fuel d sel h (k0 :: ks) anc RA); [eapply matches_structure; eassumption| |right; split; [reflexivity|discriminate]|exact CM].
      intros j J. specialize (K1 j J). split; [|apply AN, K1]. destruct K1 as (c & id & _ & _ & _ & KJ). pose proof (key_by_id_np d id FU) as NP. unfold key_by_id in NP. rewrite KJ in NP. destruct (get_elementdata d j); [discriminate|congruence]. }
    destruct (find (suitable d lt) anc) as [a|] eqn:FA.
    2:{ exfalso. pose proof (find_none _ _ FA h IN) as X. cbv beta in X. apply not_true_iff_false in X. apply X. eapply suitable_spec; eassumption. }
    apply find_some in FA. destruct FA as (IA & SA). assert (GA : exists ae, get_elementdata d a = Some ae) by (unfold suitable in SA; destruct (get_elementdata d a); [eauto|discriminate]). destruct GA as (ae & GA).
    eapply fine_in_layer; try eassumption; [split; assumption|]. apply holds_contains; [|apply (suitable_spec d lt a ae GA), SA].
    apply group_in. eapply layer_group; [apply span_member, SP|exact AT|exact LT].
Qed.

(* An element whose parts are placed as the format wants is stored, alone or under an existing element, whatever the document
   looks like: as long as its IDs are new and there is room for it. *)
Theorem C65_adding_succeeds : forall d e sets, tidy d -> built e -> fresh_for d e -> addable sets (has_element d) e -> has_room sets d (size e) ->
  (e_type e <> ET_Feature -> succeeds (fun fuel => add_element fuel d e)) /\
  (forall p, fits_under sets d p e -> succeeds (fun fuel => add_element_to fuel d p e)).
Proof.
  intros d e sets T B FR AD RO. destruct (room_full _ _ _ T RO) as (FU & AF & N). destruct (C16_adding_returns_partial d e T B FR) as (R1 & R2 & _ & _). split.
  - intros NF. apply (fine_succeeds sets); [exact R1|]. intros fuel. eapply fine_add_element; try eassumption. auto.
  - intros p FI. pose proof FI as (pe & G & FE & _). apply (fine_succeeds sets).
    + apply R2; [congruence|]. intros TF pe' G'. rewrite G in G'. injection G' as <-. destruct (FE TF) as (a & E & _). congruence.
    + intros fuel. apply fine_add_element_to; assumption.
Qed.
Print Assumptions C65_adding_succeeds.
Theorem C65_annotating_succeeds : forall d p e sets, tidy d -> built e -> fresh_for d e -> addable sets (has_element d) e -> has_room sets d (S (size e)) ->
  can_annotate sets d p e -> succeeds (fun fuel => annotate fuel d p e).
Proof.
  intros d p e sets T B FR AD RO CA. destruct (C16_adding_returns_partial d e T B FR) as (_ & _ & R3 & _). apply (fine_succeeds sets); [|intros fuel; apply fine_annotate; assumption].
  apply R3. intros TF pe G. destruct CA as [pe' G' _ (pe2 & G2 & FE & _) _|lt b s pe' SP|lt b s pe' h he k SP]; [|destruct (span_plain _ SP) as (X & _); contradiction|destruct (span_plain _ SP) as (X & _); contradiction].
  destruct (FE TF) as (a & E & _). replace pe with pe2 by congruence. congruence.
Qed.
Print Assumptions C65_annotating_succeeds.
(* annotate_span finds the place by itself *)
Theorem C65_annotating_span_succeeds : forall d e sets, tidy d -> built e -> fresh_for d e -> addable sets (has_element d) e -> has_room sets d (S (size e)) ->
  In (e_type e) (group_elementtypes EG_Span) -> (exists k, spans d e k) -> (forall k, spans d e k -> can_annotate sets d k e) -> succeeds (fun fuel => annotate_span fuel d e).
Proof.
  intros d e sets T B FR AD RO SP (k & SK) CA. destruct (C16_adding_returns_partial d e T B FR) as (_ & _ & _ & R4). apply (fine_succeeds sets); [exact R4|]. intros fuel. unfold annotate_span.
  rewrite (proj2 (group_in EG_Span (e_type e)) SP). cbn [negb]. inversion AD as [e' _ _ _ WR]; subst. pose proof FR as (NE & _). inversion NE as [e' _ NK _ _]; subst.
  destruct (span_keys_spec d (e_data e) NK (fun c I T' => proj2 (WR c I T'))) as (K1 & K2). fold (get_span_keys d e) in K1, K2.
  assert (NN : get_span_keys d e <> []) by (apply K2; destruct SK as (c & id & I & TC & _); eauto). destruct (get_span_keys d e) as [|k0 ks]; [congruence|].
  apply fine_annotate; try assumption. apply CA, K1. left. reflexivity.
Qed.
Print Assumptions C65_annotating_span_succeeds.

Ltac ad_cases I := cbn in I; repeat match type of I with _ \/ _ => destruct I as [I|I] | False => destruct I end; try discriminate I; injection I as <-.
Ltac ad_ok := match goal with |- addable _ _ ?e => let e' := eval vm_compute in e in change e with e' end; constructor; [wf_set|intros c I; ad_cases I; ad_ok|intros c I; ad_cases I; discriminate|
  intros c I; ad_cases I; first [discriminate|intros _; split; [cbn; tauto|split; [eexists; cbn; wf_in|intros id J; ad_cases J; vm_compute; discriminate]]]].
Definition add_sets : list (AnnotationType * option string) :=
  [(AT_TOKEN, Some "tokset"); (AT_TEXT, Some DEFAULT_TEXT_SET); (AT_TEXT, None); (AT_POS, Some "posset"); (AT_POS, None); (AT_ENTITY, Some "entset")].
Lemma add_room : forall n, n < 9 -> has_room add_sets ex_doc n.
Proof.
  intros n L. exists add_sets. split; [auto|]. assert (E : exists a b, length (st_items (doc_decls ex_doc)) = a /\ length (st_items (doc_elements ex_doc)) = b /\ a = 5 /\ b = 17) by (eexists _, _; vm_compute; auto).
  destruct E as (a & b & -> & -> & -> & ->). cbn [length add_sets]. split; [vm_compute; discriminate|lia].
Qed.
(* a fourth word for the sentence, a feature for the first part-of-speech tag, an entity over two words *)
Example C65_nonvacuous : let w := ex_word "w.4" "again" "adv" in let f := e_attr ET_Feature [A_Subset "head"; A_Class "n"] in let s := ex_span "per" ["w.1"; "w.3"] in
  tidy ex_doc /\ (forall n, n < 9 -> has_room add_sets ex_doc n) /\
  built w /\ fresh_for ex_doc w /\ addable add_sets (has_element ex_doc) w /\ size w < 8 /\ fits_under add_sets ex_doc 10 w /\ can_annotate add_sets ex_doc 10 w /\
  built f /\ fresh_for ex_doc f /\ addable add_sets (has_element ex_doc) f /\ size f < 8 /\ fits_under add_sets ex_doc 2 f /\
  built s /\ fresh_for ex_doc s /\ addable add_sets (has_element ex_doc) s /\ size s < 8 /\ (exists k, spans ex_doc s k) /\ (forall k, spans ex_doc s k -> can_annotate add_sets ex_doc k s) /\
  can_annotate add_sets ex_doc 10 s.
Proof.
  cbv zeta. split; [exact ex_tidy|]. split; [exact add_room|].
  split; [apply elem_textualb_spec; vm_compute; reflexivity|]. split; [apply freshb_spec; vm_compute; reflexivity|]. split; [ad_ok|]. split; [vm_compute; lia|].
  assert (FW : fits_under add_sets ex_doc 10 (ex_word "w.4" "again" "adv")) by (eexists; split; [vm_compute; reflexivity|]; split; intros E; vm_compute in E; discriminate E).
  split; [exact FW|]. split; [eapply can_inline; [vm_compute; reflexivity| |exact FW|intros X; vm_compute in X; decompose [or] X; try discriminate; contradiction]|].
  { apply accepts_type_spec. vm_compute. reflexivity. }
  split; [apply elem_textualb_spec; vm_compute; reflexivity|]. split; [apply freshb_spec; vm_compute; reflexivity|]. split; [ad_ok|]. split; [vm_compute; lia|].
  split; [eexists; split; [vm_compute; reflexivity|]; split; [|intros E; vm_compute in E; discriminate E]|].
  { intros _. exists AT_POS. split; [reflexivity|]. intros [x|] G; [cbn in G; decompose [or] G; try discriminate; contradiction|cbn; tauto]. }
  split; [apply elem_textualb_spec; vm_compute; reflexivity|]. split; [apply freshb_spec; vm_compute; reflexivity|]. split; [ad_ok|]. split; [vm_compute; lia|].
  assert (LT : layer_type (ex_span "per" ["w.1"; "w.3"]) ET_EntitiesLayer) by (exists AT_ENTITY; split; reflexivity).
  assert (CS : chosen_set ex_doc (ex_span "per" ["w.1"; "w.3"]) "entset") by (left; reflexivity).
  assert (SP : forall k, spans ex_doc (ex_span "per" ["w.1"; "w.3"]) k -> k = 3 \/ k = 9) by (intros k (c & id & I & T & J & K); ad_cases I; ad_cases J; vm_compute in K; injection K as <-; auto).
  assert (S3 : spans ex_doc (ex_span "per" ["w.1"; "w.3"]) 3) by (eexists _, "w.1"; split; [cbn; left; reflexivity|]; split; [reflexivity|]; split; [cbn; wf_in|vm_compute; reflexivity]).
  split; [exists 3; exact S3|]. split.
  - intros k Q. assert (AN : forall j, spans ex_doc (ex_span "per" ["w.1"; "w.3"]) j -> ancestor ex_doc 10 j) by (intros j J; destruct (SP j J) as [-> | ->]; apply anc_parent; vm_compute; reflexivity).
    destruct (SP k Q) as [-> | ->]; (eapply (can_span _ _ _ _ ET_EntitiesLayer AT_ENTITY "entset" _ 10); [cbn; tauto|exact LT|exact CS|reflexivity|cbn; tauto|vm_compute; reflexivity|reflexivity|exact S3|vm_compute; reflexivity|cbn; tauto|left; cbn; tauto|exact AN]).
  - eapply (can_layer _ _ _ _ ET_EntitiesLayer AT_ENTITY "entset"); [cbn; tauto|exact LT|exact CS|reflexivity|cbn; tauto|vm_compute; reflexivity|reflexivity|cbn; tauto|]. apply accepts_type_spec. vm_compute. reflexivity.
Qed.
(* A feature that is nested in a new element is always refused: the parent it belongs to is not stored yet when its class is
   looked up. Here a part-of-speech tag with a feature is added to a word: all IDs are new, the sets are declared and every
   element is accepted by its parent. *)
Theorem C65_nested_feature_refuted : exists d p e d1 x, tidy d /\ built e /\ fresh_for d e /\ has_room add_sets d (S (size e)) /\
  (exists pe c, get_elementdata d p = Some pe /\ may_contain (e_type pe) (e_type e) /\ e_data e = [DAddElement c] /\ e_data c = [] /\ may_contain (e_type e) (e_type c)) /\
  (forall a s, et_annotationtype (e_type e) = Some a -> gives_set (e_attribs e) s -> declares d a s) /\
  add_element_to fuel1 d p e = (d1, Err x) /\ annotate fuel1 d p e = (d1, Err x).
Proof.
  exists ex_doc, 3, (e_add_element (ex_pos "x") (e_attr ET_Feature [A_Subset "head"; A_Class "n"])). eexists _, _. split; [exact ex_tidy|].
  split; [apply elem_textualb_spec; vm_compute; reflexivity|]. split; [apply freshb_spec; vm_compute; reflexivity|]. split; [apply add_room; vm_compute; lia|].
  split; [|split; [|split; vm_compute; reflexivity]].
  - eexists _, _. split; [vm_compute; reflexivity|]. split; [apply accepts_type_spec; vm_compute; reflexivity|]. split; [reflexivity|]. split; [reflexivity|]. apply accepts_type_spec. vm_compute. reflexivity.
  - intros a s E G. cbn in E. injection E as <-. destruct s as [s|]; [|exfalso; apply (G "posset"); cbn; tauto]. cbn in G. decompose [or] G; try discriminate; try contradiction. match goal with Q : A_Set _ = _ |- _ => injection Q as <- end.
    assert (X : exists k x, get_declaration ex_doc k = Some x /\ d_type x = AT_POS /\ d_set x = Some "posset") by (exists 3; eexists; vm_compute; auto). exact X.
Qed.
Print Assumptions C65_nested_feature_refuted.
