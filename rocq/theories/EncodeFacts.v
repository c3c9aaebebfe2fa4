(* Encoding of set, class, subset and processor: what stored elements look like, and what they report. *)
From Coq Require Import String List Bool Arith NArith Lia.
From Verif Require Import Base BaseFacts Types TypesFacts SpecTable Attrib AttribFacts Element Store StoreFacts Metadata Document Select DocOps Xml Parser History FrameFacts InvFacts DocFacts StoreThms InternFacts.
Import ListNotations.
Open Scope list_scope.

(* ---------------------------------------------------------------- scanning attributes *)
(* the first value picked from a list *)
Fixpoint first_pick {B} (pick : Attribute -> option B) (l : list Attribute) : option B :=
  match l with
  | [] => None
  | a :: r => match pick a with Some x => Some x | None => first_pick pick r end
  end.
Lemma scan_decoded_textual pick l : textual l -> scan_decoded pick l = Ok (first_pick pick l).
Proof.
  induction l as [|a l IH]; intros T; [reflexivity|]. cbn. destruct (pick a); [reflexivity|].
  rewrite (T a (or_introl eq_refl)). apply IH. intros b I. apply T. right; exact I.
Qed.
Lemma first_pick_app {B} (pick : Attribute -> option B) l r :
  first_pick pick (l ++ r) = match first_pick pick l with Some x => Some x | None => first_pick pick r end.
Proof. induction l as [|a l IH]; [reflexivity|]. cbn. destruct (pick a); [reflexivity|exact IH]. Qed.
Lemma first_pick_none {B} (pick : Attribute -> option B) l : (forall a, In a l -> pick a = None) -> first_pick pick l = None.
Proof. induction l as [|a l IH]; intros H; [reflexivity|]. cbn. rewrite (H a (or_introl eq_refl)). apply IH. intros b I. apply H. right; exact I. Qed.
Lemma first_pick_some {B} (pick : Attribute -> option B) l x : first_pick pick l = Some x -> exists a, In a l /\ pick a = Some x.
Proof. induction l as [|a l IH]; cbn; [discriminate|]. destruct (pick a) eqn:P; [intros H; inversion H; subst; eauto|]. intros H. destruct (IH H) as (b & I & E). eauto. Qed.
Lemma first_pick_unique {B} (pick : Attribute -> option B) t l a x : NoDup (map attribtype l) -> In a l -> pick a = Some x ->
  attribtype a = t -> (forall b y, pick b = Some y -> attribtype b = t) -> first_pick pick l = Some x.
Proof.
  intros N I P T U. induction l as [|b l IH]; [destruct I|]. cbn in *. inversion N; subst.
  destruct I as [->|I]; [rewrite P; reflexivity|]. destruct (pick b) as [y|] eqn:Q; [|apply IH; assumption].
  exfalso. apply H1. rewrite (U b y Q). apply in_map, I.
Qed.

(* ---------------------------------------------------------------- shape of stored attributes *)
Definition refs (n : encoding) : list Attribute :=
  opt_attr A_DeclarationRef (en_dec n) ++ opt_attr A_ClassRef (en_class n) ++
  opt_attr A_ProcessorRef (en_proc n) ++ opt_attr A_SubsetRef (en_subset n).
Definition plain (a : Attribute) : Prop := a_encodable a = false /\ decodable a = false.
Definition no_refs : encoding := mkEnc None None None None false.

Lemma scan_encoded_plain pick p r : Forall plain p -> (forall a, pick a <> None -> decodable a = true) ->
  scan_encoded pick (p ++ r) = scan_encoded pick r.
Proof.
  intros F H. induction F as [|a p (E & D) F IH]; [reflexivity|]. cbn. destruct (pick a) eqn:P.
  - assert (decodable a = true) by (apply H; congruence). congruence.
  - rewrite E. exact IH.
Qed.
Lemma shape_dec t p n d k par : Forall plain p -> e_declaration_key (mkElem t (p ++ refs n) d k par) = Ok (en_dec n).
Proof.
  intros F. unfold e_declaration_key. cbn [e_attribs]. rewrite scan_encoded_plain; [|exact F|intros []; cbn; congruence].
  unfold refs, opt_attr. destruct (en_dec n), (en_class n), (en_proc n), (en_subset n); reflexivity.
Qed.
Lemma shape_class t p n d k par : Forall plain p -> e_class_key (mkElem t (p ++ refs n) d k par) = Ok (en_class n).
Proof.
  intros F. unfold e_class_key. cbn [e_attribs]. rewrite scan_encoded_plain; [|exact F|intros []; cbn; congruence].
  unfold refs, opt_attr. destruct (en_dec n), (en_class n), (en_proc n), (en_subset n); reflexivity.
Qed.
Lemma shape_proc t p n d k par : Forall plain p -> e_processor_key (mkElem t (p ++ refs n) d k par) = Ok (en_proc n).
Proof.
  intros F. unfold e_processor_key. cbn [e_attribs]. rewrite scan_encoded_plain; [|exact F|intros []; cbn; congruence].
  unfold refs, opt_attr. destruct (en_dec n), (en_class n), (en_proc n), (en_subset n); reflexivity.
Qed.
Lemma shape_subset t p n d k par : Forall plain p -> e_subset_key (mkElem t (p ++ refs n) d k par) = Ok (en_subset n).
Proof.
  intros F. unfold e_subset_key. cbn [e_attribs]. rewrite scan_encoded_plain; [|exact F|intros []; cbn; congruence].
  unfold refs, opt_attr. destruct (en_dec n), (en_class n), (en_proc n), (en_subset n); reflexivity.
Qed.

(* what the references of an element of type [t] mean in a document *)
Record refs_ok (d : document) (t : ElementType) (n : encoding) : Prop := mkRO {
  ro_dec : forall dk, en_dec n = Some dk -> exists dec, get_declaration d dk = Some dec /\
             forall a, et_annotationtype t = Some a -> d_type dec = a;
  ro_class : forall ck, en_class n = Some ck -> exists dk dec c, en_dec n = Some dk /\ get_declaration d dk = Some dec /\
             (if et_eqb t ET_Feature then d_get_subclass dec ck else d_get_class dec ck) = Some c;
  ro_proc : forall pk, en_proc n = Some pk -> exists p, get_processor d pk = Some p;
  ro_subset : forall sk, en_subset n = Some sk -> t = ET_Feature /\ exists dk dec c, en_dec n = Some dk /\ get_declaration d dk = Some dec /\
             d_get_subset dec sk = Some c;
  ro_kind : en_dec n <> None -> t = ET_Feature \/ et_annotationtype t <> None;
  ro_listed : forall pk dk, en_proc n = Some pk -> en_dec n = Some dk -> exists dec, get_declaration d dk = Some dec /\ In pk (d_processors dec) }.
Definition enc_state (d : document) (t : ElementType) (l : list Attribute) : Prop :=
  exists p n, l = p ++ refs n /\ Forall plain p /\ refs_ok d t n.

Lemma doc_le_decl a b dk dec : doc_le a b -> get_declaration a dk = Some dec -> exists dec', get_declaration b dk = Some dec' /\ decl_keeps dec dec'.
Proof. intros [_ (L & _) _]. apply L. Qed.
Lemma doc_le_proc a b pk p : doc_le a b -> get_processor a pk = Some p -> exists p', get_processor b pk = Some p' /\ proc_keeps p p'.
Proof. intros [_ _ (L & _)]. apply L. Qed.
Lemma doc_le_elem a b k e : doc_le a b -> get_elementdata a k = Some e -> exists e', get_elementdata b k = Some e' /\ elem_keeps e e'.
Proof. intros [(L & _) _ _]. apply L. Qed.
Lemma refs_ok_le a b t n : doc_le a b -> refs_ok a t n -> refs_ok b t n.
Proof.
  intros L [D C P S KI Q]. split; [| | | |exact KI|].
  - intros dk E. destruct (D _ E) as (dec & G & T). destruct (doc_le_decl _ _ _ _ L G) as (dec' & G' & K).
    exists dec'. split; [exact G'|]. intros x X. rewrite (dk_type _ _ K). auto.
  - intros ck E. destruct (C _ E) as (dk & dec & c & X & G & V). destruct (doc_le_decl _ _ _ _ L G) as (dec' & G' & K).
    exists dk, dec', c. repeat split; auto. destruct (et_eqb t ET_Feature); [apply (dk_subclass _ _ K), V|apply (dk_class _ _ K), V].
  - intros pk E. destruct (P _ E) as (p & G). destruct (doc_le_proc _ _ _ _ L G) as (p' & G' & _). eauto.
  - intros sk E. destruct (S _ E) as (F & dk & dec & c & X & G & V). split; [exact F|]. destruct (doc_le_decl _ _ _ _ L G) as (dec' & G' & K).
    exists dk, dec', c. repeat split; auto. apply (dk_subset _ _ K), V.
  - intros pk dk E1 E2. destruct (Q _ _ E1 E2) as (dec & G & IN). destruct (doc_le_decl _ _ _ _ L G) as (dec' & G' & K').
    exists dec'. split; [exact G'|]. destruct (dk_procs _ _ K') as (l & ->). apply in_or_app. left. exact IN.
Qed.
Lemma enc_state_le a b t l : doc_le a b -> enc_state a t l -> enc_state b t l.
Proof. intros L (p & n & E & F & R). exists p, n. repeat split; auto; eapply refs_ok_le; eassumption. Qed.

(* processors referred to by the document exist *)
Definition has_proc (d : document) (pk : nat) : Prop := exists p, get_processor d pk = Some p.
Record procs_ok (d : document) : Prop := mkPO {
  po_active : forall pk, doc_active d = Some pk -> has_proc d pk;
  po_decl : forall dk dec pk, get_declaration d dk = Some dec -> In pk (d_processors dec) -> has_proc d pk;
  po_chain : forall pk, In pk (doc_chain d) -> has_proc d pk;
  po_sub : forall k p c, get_processor d k = Some p -> In c (pr_processors p) -> has_proc d c;
  po_parent : forall k p c, get_processor d k = Some p -> pr_parent p = Some c -> has_proc d c }.
Definition enc_ok (d : document) : Prop := st_all (fun _ e => enc_state d (e_type e) (e_attribs e)) (doc_elements d).
Definition full_ok (d : document) : Prop := doc_ok d /\ vocabs_ok d /\ procs_ok d /\ enc_ok d.

Lemma has_proc_le a b pk : doc_le a b -> has_proc a pk -> has_proc b pk.
Proof. intros L (p & G). destruct (doc_le_proc _ _ _ _ L G) as (q & Q & _). exists q. exact Q. Qed.

Lemma procs_index d id pk : doc_ok d -> get_processor_key_by_id d id = Some pk -> exists p, get_processor d pk = Some p /\ pr_id p = id.
Proof. intros (_ & _ & ((_ & Hi & _) & _)) K. destruct (Hi _ _ K) as (p & G & M). exists p. split; [exact G|]. unfold pr_maybe_id in M. congruence. Qed.
Lemma proc_source_has d pk : doc_ok d -> procs_ok d -> proc_source d pk -> has_proc d pk.
Proof. intros W P [A|(id & K)]; [apply (po_active _ P _ A)|]. destruct (procs_index _ _ _ W K) as (p & G & _). exists p. exact G. Qed.

(* ---------------------------------------------------------------- the invariant and the primitive changes *)
Lemma st_get_add_inv {T} mk mi ak (s : store T) x k y : st_get (fst (st_add mk mi ak s x)) k = Some y ->
  st_get s k = Some y \/ k = st_len s /\ y = ak (st_len s) x.
Proof.
  destruct (add_cases mk mi ak s x) as [id j M J|s' N _ E I|_ F]; auto.
  rewrite (st_get_snoc _ _ _ _ E). destruct (Nat.eqb_spec k (st_len s)); [|auto]. intros H; inversion H; auto.
Qed.
Lemma st_get_set_inv {T} (s : store T) k x j y : st_get (st_set s k x) j = Some y -> st_get s j = Some y \/ j = k /\ y = x.
Proof.
  rewrite st_get_set. destruct (Nat.eqb_spec j k) as [->|N]; [|auto]. destruct (Nat.ltb k (st_len s)); [|discriminate].
  intros H; inversion H; auto.
Qed.
Lemma procs_prim0 a b : prim0 normal a b -> doc_ok a -> procs_ok a -> procs_ok b.
Proof.
  intros P W PO. pose proof (prim0_le _ _ _ P) as L.
  assert (HL : forall pk, has_proc a pk -> has_proc b pk) by (intros pk; apply has_proc_le, L).
  destruct P as [d x G|d dk dec pk G S|d dk dec add x A G|d p p0 GP EP|d k p parent G GN|d k p child G GN|d k p H|d k S
    |d k e p G|d k e x G N|d k e i x G N|d k e dk x kx G GL HS GX DX TX|d m|d m|d x|d x];
    rewrite ?add_declaration_fst, ?add_provenance_fst in *; cbn [g_decl g_proc g_strict normal] in *;
    pose proof PO as PO0; destruct PO as [P1 P2 P3 P4 P5]; split; unfold get_declaration, get_processor in *; docs; eauto.
  - intros j dec pk H I. apply st_get_add_inv in H. destruct H as [H|(-> & ->)]; [eauto|].
    destruct G as (G & _). cbn in I. rewrite G in I. destruct I.
  - intros j dec' pk' H I. apply st_get_set_inv in H. destruct H as [H|(-> & ->)]; [eauto|].
    cbn in I. apply in_app_or in I. destruct I as [I|[<-|[]]]; [eauto|]. apply HL, proc_source_has; assumption.
  - intros j dec' pk' H I. apply st_get_set_inv in H. destruct H as [H|(-> & ->)]; [eauto|].
    destruct (decl_add_parts add dec x A) as (_ & _ & _ & _ & _ & E). rewrite E in I. eauto.
  - intros j q c H I. apply st_get_add_inv in H. destruct H as [H|(-> & ->)]; [eauto|].
    destruct GP as (F1 & F2). destruct EP as [->| ->]; cbn in I; rewrite F1 in I; destruct I.
  - intros j q c H I. apply st_get_add_inv in H. destruct H as [H|(-> & ->)]; [eauto|].
    destruct GP as (F1 & F2). destruct EP as [->| ->]; cbn in I; rewrite F2 in I; discriminate.
  - intros j q c H I. apply st_get_set_inv in H. destruct H as [H|(-> & ->)]; [eauto|]. cbn in I. eauto.
  - intros j q c H I. apply st_get_set_inv in H. destruct H as [H|(-> & ->)]; [eauto|]. cbn in I. inversion I; subst.
    apply HL. destruct (st_get (doc_procs d) c) as [y|] eqn:E; [|congruence]. exists y. exact E.
  - intros j q c H I. apply st_get_set_inv in H. destruct H as [H|(-> & ->)]; [eauto|]. cbn in I.
    apply in_app_or in I. destruct I as [I|[<-|[]]]; [eauto|]. apply HL.
    destruct (st_get (doc_procs d) child) as [y|] eqn:E; [|congruence]. exists y. exact E.
  - intros j q c H I. apply st_get_set_inv in H. destruct H as [H|(-> & ->)]; [eauto|]. cbn in I. eauto.
  - intros pk I. apply in_app_or in I. destruct I as [I|[<-|[]]]; [eauto|].
    assert (W' : st_wf pr_maybe_id (fst (st_add max_proc pr_maybe_id pr_assign_key (doc_procs d) p))) by (apply W).
    rewrite add_provenance_snd in H. clear - H W'.
    unfold has_proc, get_processor. docs.
    destruct (add_cases max_proc pr_maybe_id pr_assign_key (doc_procs d) p) as [id j M J|s' N _ E I|_ F]; inversion H; subst.
    + destruct W' as (_ & Hi & _). destruct (Hi _ _ J) as (x & X & _). eauto.
    + rewrite (st_get_snoc _ _ _ _ E), Nat.eqb_refl. eauto.
  - intros pk E. inversion E; subst. apply S. exact I.
Qed.

Lemma e_declaration_key_state d t l data k p dk : enc_state d t l -> e_declaration_key (mkElem t l data k p) = Ok (Some dk) ->
  exists dec, get_declaration d dk = Some dec /\ forall a, et_annotationtype t = Some a -> d_type dec = a.
Proof.
  intros (pl & n & -> & F & R) H. rewrite (shape_dec t pl n data k p F) in H. inversion H as [E]. apply (ro_dec _ _ _ R _ E).
Qed.
Lemma enc_prim0 a b : prim0 normal a b -> enc_ok a -> enc_ok b.
Proof.
  intros P EO. pose proof (prim0_le _ _ _ P) as L.
  assert (EL : st_all (fun _ e => enc_state b (e_type e) (e_attribs e)) (doc_elements a)).
  { intros k e G. eapply enc_state_le; [exact L|]. apply (EO _ _ G). }
  clear L.
  destruct P as [d x G|d dk dec pk G S|d dk dec add x A G|d p p0 GP EP|d k p parent G GN|d k p child G GN|d k p H|d k S
    |d k e p G|d k e x G N|d k e i x G N|d k e dk x kx G GL HS GX DX TX|d m|d m|d x|d x];
    rewrite ?add_declaration_fst, ?add_provenance_fst in *; unfold enc_ok in *; docs_g; try exact EL.
  - apply st_all_set; [exact EL|]. apply (EL _ _ G).
  - apply st_all_set; [exact EL|]. apply (EL _ _ G).
  - apply st_all_set; [exact EL|]. apply (EL _ _ G).
  - apply st_all_set; [exact EL|]. cbn [e_type e_attribs e_with_attribs].
    exists [], (mkEnc (Some dk) None None None false). split; [reflexivity|]. split; [constructor|].
    split; cbn; try discriminate; [|intros _; right; intros Q; destruct (layer_annotationtype _ GL) as (a & AT); congruence]. intros dk' E. inversion E; subst dk'.
    pose proof (EO _ _ GX) as SX. destruct x as [ty al da ke pa]. destruct (e_declaration_key_state _ _ _ _ _ _ _ SX DX) as (dec & GD & TD).
    exists dec. split; [exact GD|]. intros t T. apply TD. cbn [e_type] in *. rewrite TX. destruct e; exact T.
Qed.

(* ---------------------------------------------------------------- interning *)
Definition v_limit (v : vocab) : N := match v with VSubset => u16_max | _ => u32_max end.
Definition v_store (v : vocab) (dec : declaration) : option sstore :=
  match v with VClass => d_classes dec | VSubset => d_subsets dec | VSubclass => d_subclasses dec end.
Definition v_size (v : vocab) (dec : declaration) : N :=
  match v_store v dec with Some s => N.of_nat (length (st_items s)) | None => 0 end.
Lemma v_add_ok v dec x : (v_size v dec <= v_limit v)%N -> exists k, snd (v_add v dec x) = Ok k.
Proof.
  intros L. destruct (v_key v dec x) as [k|] eqn:K.
  - exists k. destruct v; cbn in *; unfold d_add_class, d_add_subset, d_add_subclass, sopt_add, d_class_key, d_subset_key, d_subclass_key, sopt_key in *;
    [destruct (d_classes dec)|destruct (d_subsets dec)|destruct (d_subclasses dec)]; try discriminate; rewrite K; reflexivity.
  - assert (S : forall mk o, sopt_key o x = None -> (match o with Some s => N.of_nat (length (st_items s)) | None => 0 end <= mk)%N -> exists k, snd (sopt_add mk o x) = Ok k).
    { intros mk o KK LL. destruct (sopt_limit mk o x KK) as (A & _). eexists. apply A. destruct o; cbn in *; exact LL. }
    destruct v; cbn [v_key v_add v_limit] in *; unfold v_size in L; cbn [v_store] in L; unfold d_add_class, d_add_subset, d_add_subclass;
    match goal with |- context [sopt_add ?m ?o x] => destruct (S m o K L) as (k & E); destruct (sopt_add m o x) as [o' r] end; cbn in *; eauto.
Qed.
Lemma intern_result v d dk dec r d1 o : vocabs_ok d -> get_declaration d dk = Some dec -> intern_opt d dk (v_add v) r = (d1, o) ->
  exists dec1, get_declaration d1 dk = Some dec1 /\ decl_keeps dec dec1 /\ d_processors dec1 = d_processors dec /\
    (forall k, o = Some k -> exists x, r = Ok (Some x) /\ v_get v dec1 k = Some x) /\
    (forall x, r = Ok (Some x) -> (v_size v dec <= v_limit v)%N -> exists k, o = Some k) /\
    (forall w, w <> v -> v_store w dec1 = v_store w dec) /\
    doc_procs d1 = doc_procs d /\ doc_active d1 = doc_active d /\ vocabs_ok d1.
Proof.
  intros V G H. unfold intern_opt in H.
  assert (D : (d, None) = (d1, o) -> (forall x, r <> Ok (Some x)) -> exists dec1, get_declaration d1 dk = Some dec1 /\ decl_keeps dec dec1 /\ d_processors dec1 = d_processors dec /\
    (forall k, o = Some k -> exists x, r = Ok (Some x) /\ v_get v dec1 k = Some x) /\
    (forall x, r = Ok (Some x) -> (v_size v dec <= v_limit v)%N -> exists k, o = Some k) /\
    (forall w, w <> v -> v_store w dec1 = v_store w dec) /\
    doc_procs d1 = doc_procs d /\ doc_active d1 = doc_active d /\ vocabs_ok d1).
  { intros E NE. inversion E; subst. exists dec. split; [exact G|]. split; [apply decl_keeps_refl|]. split; [reflexivity|].
    split; [discriminate|]. split; [intros x X; destruct (NE _ X)|]. split; [auto|]. split; [reflexivity|]. split; [reflexivity|exact V]. }
  destruct r as [[x|]| | |]; try (apply D; [exact H|congruence]). clear D. rewrite G in H.
  destruct (v_add v dec x) as [dec' k] eqn:A. inversion H; subst; clear H.
  assert (A' : dec' = fst (v_add v dec x)) by (rewrite A; reflexivity).
  exists dec'. split; [apply (st_get_set_same _ _ _ _ G)|]. split; [rewrite A'; apply decl_add_keeps, v_decl_add|].
  split; [rewrite A'; apply decl_add_parts, v_decl_add|]. split; [|split; [|split; [|split; [|split]]]].
  - intros k' E. destruct k as [k| | |]; try discriminate E. injection E as <-. exists x. split; [reflexivity|]. apply (v_add_result v dec dec' x k (V _ _ G) A).
  - intros y E L. destruct (v_add_ok v dec x L) as (k' & K). rewrite A in K. cbn in K. subst k. eauto.
  - intros w NW. destruct v, w; try congruence; cbn in A; unfold d_add_class, d_add_subset, d_add_subclass in A;
      destruct (sopt_add _ _ _); inversion A; reflexivity.
  - reflexivity.
  - reflexivity.
  - intros j y GY. apply st_get_set_inv in GY. destruct GY as [GY|(-> & ->)]; [apply (V _ _ GY)|]. rewrite A'. apply v_add_wf, (V _ _ G).
Qed.

(* ---------------------------------------------------------------- declare *)
Lemma declare_keeps_ok d t s a f : doc_ok d -> vocabs_ok d -> procs_ok d ->
  doc_ok (fst (declare d t s a f)) /\ vocabs_ok (fst (declare d t s a f)) /\ procs_ok (fst (declare d t s a f)).
Proof.
  intros W V P. pose proof (declare_p0 normal (fun t s a f => conj eq_refl (conj eq_refl (conj eq_refl eq_refl))) d t s a f) as R.
  revert R. generalize (fst (declare d t s a f)). intros d1 R. induction R as [d|d d' d'' S R IH]; [auto|].
  apply IH; [eapply prim0_ok|eapply (vocabs_prim0 normal); [exact decl_fresh_wf| |]|eapply procs_prim0]; eassumption.
Qed.
Lemma prims0_ok d d1 : prims0 normal d d1 -> doc_ok d -> vocabs_ok d -> procs_ok d -> doc_ok d1 /\ vocabs_ok d1 /\ procs_ok d1.
Proof.
  intros R W V P. induction R as [d|d d' d'' S R IH]; [auto|].
  apply IH; [eapply prim0_ok|eapply (vocabs_prim0 normal); [exact decl_fresh_wf| |]|eapply procs_prim0]; eassumption.
Qed.
Lemma declare_active d t s a f : doc_active (fst (declare d t s a f)) = doc_active d.
Proof.
  unfold declare. destruct (get_declaration_key_by_id d (index_id t s)); [reflexivity|]. cbv zeta.
  match goal with |- context [sbind (match ?x with _ => _ end) _] => destruct x end.
  - cbn [sbind fst]. destruct (doc_active d) eqn:A; [|exact A]. destruct (assoc_parts d n n0) as (_ & _ & E & _). congruence.
  - pose proof (add_declaration_fst d (d_new t s a f)) as E. destruct (add_declaration d (d_new t s a f)) as [d1 [k| | |]]; cbn [sbind fst] in *; subst d1; docs; try reflexivity.
    destruct (doc_active d) eqn:A; [|exact A]. match goal with |- context [assoc_processor ?x ?y ?z] => destruct (assoc_parts x y z) as (_ & _ & F & _) end. rewrite F. exact A.
Qed.
Lemma declare_procs d t s a f : doc_procs (fst (declare d t s a f)) = doc_procs d.
Proof.
  unfold declare. destruct (get_declaration_key_by_id d (index_id t s)); [reflexivity|]. cbv zeta.
  match goal with |- context [sbind (match ?x with _ => _ end) _] => destruct x end.
  - cbn [sbind fst]. destruct (doc_active d) eqn:A; [|reflexivity]. apply assoc_parts.
  - pose proof (add_declaration_fst d (d_new t s a f)) as E. destruct (add_declaration d (d_new t s a f)) as [d1 [k| | |]]; cbn [sbind fst] in *; subst d1; docs; try reflexivity.
    destruct (doc_active d) eqn:A; [|reflexivity]. match goal with |- context [assoc_processor ?x ?y ?z] => destruct (assoc_parts x y z) as (_ & F & _) end. rewrite F. reflexivity.
Qed.

(* ---------------------------------------------------------------- what encode does *)
(* every declaration can still take a class, a subset and a feature class *)
Definition room (d : document) : Prop := forall dk dec v, get_declaration d dk = Some dec -> (v_size v dec <= v_limit v)%N.
Definition class_vocab (t : ElementType) : vocab := if et_eqb t ET_Feature then VSubclass else VClass.

Lemma get_with_active_vocab d k j x : get_declaration (with_active d k) j = Some x ->
  exists y, get_declaration d j = Some y /\ forall v, v_store v x = v_store v y.
Proof.
  unfold with_active. destruct (doc_active d) as [pk|]; [|intros H; exists x; auto].
  rewrite get_assoc_decl. destruct (Nat.eqb_spec j k) as [->|N]; [|intros H; exists x; auto].
  destruct (get_declaration d k) as [y|]; [|discriminate]. cbn. intros H; inversion H; subst. exists y. split; [reflexivity|]. intros []; reflexivity.
Qed.
Lemma declare_room d t s a f : doc_ok d -> room d -> room (fst (declare d t s a f)).
Proof.
  intros W R. pose proof (declare_cases d t s a f W) as C. remember (fst (declare d t s a f)) as d1. remember (snd (declare d t s a f)) as r.
  clear Heqd1 Heqr. destruct C as [k dec X G T S|k dec S X O G T|d2 X DD A G X2|]; try exact R; intros j x v GX;
    apply get_with_active_vocab in GX; destruct GX as (y & GY & E); unfold v_size; rewrite E; fold (v_size v y).
  - apply (R _ _ _ GY).
  - pose proof (add_declaration_fst d (d_new t s a f)) as F. rewrite A in F. cbn [fst] in F. subst d2.
    unfold get_declaration in GY. docs. apply st_get_add_inv in GY. destruct GY as [GY|(-> & ->)]; [apply (R _ _ _ GY)|].
    destruct v; cbv; discriminate.
Qed.

Record described (d d1 : document) (e : elementdata) (n : encoding) (t : AnnotationType) (dk : nat) (dec : declaration) : Prop := mkDS {
  ds_dec : en_dec n = Some dk;
  ds_get : get_declaration d1 dk = Some dec;
  ds_type : d_type dec = t;
  ds_set : forall s, first_pick pick_set (e_attribs e) = Some s -> d_set dec = Some s;
  ds_class : forall ck, en_class n = Some ck -> exists c, first_pick pick_class (e_attribs e) = Some c /\ v_get (class_vocab (e_type e)) dec ck = Some c;
  ds_class_room : forall c, first_pick pick_class (e_attribs e) = Some c -> room d -> exists ck, en_class n = Some ck;
  ds_subset : forall sk, en_subset n = Some sk -> e_type e = ET_Feature /\ exists x, first_pick pick_subset (e_attribs e) = Some x /\ d_get_subset dec sk = Some x;
  ds_subset_room : forall x, e_type e = ET_Feature -> first_pick pick_subset (e_attribs e) = Some x -> room d -> exists sk, en_subset n = Some sk }.

Lemma described_keeps d d1 d2 e n n' t dk dec dec2 : described d d1 e n t dk dec -> get_declaration d2 dk = Some dec2 -> decl_keeps dec dec2 ->
  en_dec n' = en_dec n -> en_class n' = en_class n -> en_subset n' = en_subset n -> described d d2 e n' t dk dec2.
Proof.
  intros [A1 A2 A3 A4 A5 A6 A7 A8] G K E1 E2 E3. split.
  - congruence.
  - exact G.
  - rewrite (dk_type _ _ K). exact A3.
  - intros s S. rewrite (dk_set _ _ K). auto.
  - intros ck C. rewrite E2 in C. destruct (A5 _ C) as (c & F & V). exists c. split; [exact F|]. apply (v_keeps _ _ _ K), V.
  - intros c C R. rewrite E2. eauto.
  - intros sk S. rewrite E3 in S. destruct (A7 _ S) as (F & x & P & V). split; [exact F|]. exists x. split; [exact P|]. apply (dk_subset _ _ K), V.
  - intros x F P R. rewrite E3. eauto.
Qed.

Definition proc_rule (d1 : document) (n : encoding) (dec : declaration) : Prop :=
  en_proc n = (match d_processors dec with [p] => Some p | _ => doc_active d1 end) /\
  (en_test n = true -> en_proc n = doc_active d1 /\ exists pk, doc_active d1 = Some pk /\ ~ In pk (d_processors dec)) /\
  (en_test n = false -> forall pk, en_proc n = Some pk -> In pk (d_processors dec)).
Inductive refs_case (d : document) (e : elementdata) (ctx : option nat) (d1 : document) (n : encoding) : Prop :=
  | RC_annot t dk dec : et_annotationtype (e_type e) = Some t -> described d d1 e n t dk dec -> en_subset n = None -> proc_rule d1 n dec -> refs_case d e ctx d1 n
  | RC_feature pk parent t dk dec : e_type e = ET_Feature -> ctx = Some pk -> get_elementdata d pk = Some parent -> et_annotationtype (e_type parent) = Some t ->
      described d d1 e n t dk dec -> en_proc n = None -> en_test n = false -> refs_case d e ctx d1 n
  | RC_other : et_annotationtype (e_type e) = None -> e_type e <> ET_Feature -> d1 = d -> n = no_refs -> refs_case d e ctx d1 n.

Lemma default_processor_eq dec : d_default_processor dec = match d_processors dec with [p] => Some p | _ => None end.
Proof. unfold d_default_processor. destruct (d_processors dec) as [|p [|q r]]; reflexivity. Qed.

Lemma encode_refs_spec d e ctx d1 n : doc_ok d -> vocabs_ok d -> procs_ok d -> textual (e_attribs e) ->
  encode_refs d e ctx = (d1, Ok n) ->
  (doc_ok d1 /\ vocabs_ok d1 /\ procs_ok d1) /\ doc_active d1 = doc_active d /\ doc_procs d1 = doc_procs d /\ refs_case d e ctx d1 n.
Proof.
  intros W V P T H.
  assert (Hd : forall t s a f, g_decl normal (d_new t s a f)) by (intros; repeat split).
  assert (OK : doc_ok d1 /\ vocabs_ok d1 /\ procs_ok d1).
  { apply (prims0_ok d d1); auto. pose proof (encode_refs_p0 normal Hd d e ctx) as X. rewrite H in X. exact X. }
  split; [exact OK|].
  assert (ES : e_set e = Ok (first_pick pick_set (e_attribs e))) by (apply scan_decoded_textual, T).
  assert (EC : e_class e = Ok (first_pick pick_class (e_attribs e))) by (apply scan_decoded_textual, T).
  assert (EB : e_subset e = Ok (first_pick pick_subset (e_attribs e))) by (apply scan_decoded_textual, T).
  unfold encode_refs in H. rewrite ES, EC, EB in H. destruct (et_annotationtype (e_type e)) as [t|] eqn:AT.
  - cbn [unwrap sbind] in H. apply sbind_ok in H. destruct H as (d2 & dk & D & H).
    destruct (declare_keeps_ok d t (first_pick pick_set (e_attribs e)) None None W V P) as (W2 & V2 & P2).
    pose proof (declare_active d t (first_pick pick_set (e_attribs e)) None None) as DA.
    pose proof (declare_procs d t (first_pick pick_set (e_attribs e)) None None) as DP.
    pose proof (declare_room d t (first_pick pick_set (e_attribs e)) None None W) as DR.
    rewrite D in W2, V2, P2, DA, DP, DR. cbn [fst] in *.
    destruct (declare_result _ _ _ _ _ _ _ W D) as (dec & G & TY & SET).
    destruct (intern_opt d2 dk d_add_class (Ok (first_pick pick_class (e_attribs e)))) as [d3 ck] eqn:I.
    destruct (intern_result VClass d2 dk dec _ d3 ck V2 G I) as (dec3 & G3 & K3 & PR3 & I1 & I2 & _ & IP & IA & V3).
    rewrite G3, default_processor_eq in H. rewrite IA, DA in H.
    assert (NF : e_type e <> ET_Feature) by (intros F; rewrite F in AT; discriminate).
    assert (DS : forall pr ts, described d d3 e (mkEnc (Some dk) ck pr None ts) t dk dec3).
    { intros pr ts. split; cbn [en_dec en_class en_proc en_subset].
      - reflexivity.
      - exact G3.
      - rewrite (dk_type _ _ K3). exact TY.
      - intros s S. rewrite (dk_set _ _ K3). destruct SET as [SET|(SET & _)]; congruence.
      - intros ck' C. destruct (I1 _ C) as (x & X & Y). exists x. split; [congruence|]. unfold class_vocab.
        destruct (et_eqb_spec (e_type e) ET_Feature); [contradiction|exact Y].
      - intros c C R. apply (I2 c); [congruence|]. apply (DR R _ _ VClass G).
      - discriminate.
      - intros x F. contradiction. }
    destruct (d_processors dec3) as [|p [|q r]] eqn:PR; [| |]; cbn [mem_nat existsb] in H.
    + destruct (doc_active d) as [pk|] eqn:A; inversion H; subst; (split; [congruence|split; [congruence|]]);
        (eapply RC_annot; [exact AT|apply DS|reflexivity|]); unfold proc_rule; rewrite PR, IA, DA; cbn; (split; [congruence|split; [|]]); try discriminate.
      * intros _. split; [congruence|]. exists pk. split; [congruence|]. intros [].
    + inversion H; subst. split; [congruence|split; [congruence|]]. eapply RC_annot; [exact AT|apply DS|reflexivity|].
      unfold proc_rule; rewrite PR; cbn. split; [reflexivity|split; [discriminate|]]. intros _ pk E. left. congruence.
    + destruct (doc_active d) as [pk|] eqn:A; inversion H; subst; (split; [congruence|split; [congruence|]]);
        (eapply RC_annot; [exact AT|apply DS|reflexivity|]); unfold proc_rule; rewrite PR, IA, DA; cbn; (split; [congruence|split; [|]]); try discriminate.
      * intros E. split; [congruence|]. exists pk. split; [congruence|]. intros IN. apply (mem_nat_In pk (p :: q :: r)) in IN. cbn in IN. rewrite IN in E. discriminate.
      * intros E pk' X. inversion X; subst. apply (mem_nat_In pk' (p :: q :: r)). cbn. apply negb_false_iff in E. exact E.
  - assert (D : (d, Ok no_refs) = (d1, Ok n) -> e_type e <> ET_Feature -> doc_active d1 = doc_active d /\ doc_procs d1 = doc_procs d /\ refs_case d e ctx d1 n).
    { intros X N. inversion X; subst. split; [reflexivity|split; [reflexivity|]]. apply RC_other; auto. }
    destruct (et_eqb_spec (e_type e) ET_Feature) as [F|NF].
    2:{ apply D; [|exact NF]. destruct (e_type e); try exact H. congruence. }
    clear D. rewrite F in H. destruct ctx as [pk|]; [|discriminate].
    apply sbind_ok in H. destruct H as (d0 & parent & GP & H). destruct (get_elementdata d pk) as [par|] eqn:GE; inversion GP; subst d0 par; clear GP.
    apply sbind_ok in H. destruct H as (d0 & t & GT & H). destruct (et_annotationtype (e_type parent)) as [t'|] eqn:PT; inversion GT; subst d0 t'; clear GT.
    cbn [unwrap sbind] in H. apply sbind_ok in H. destruct H as (d2 & dk & D & H).
    destruct (declare_keeps_ok d t (first_pick pick_set (e_attribs e)) None None W V P) as (W2 & V2 & P2).
    pose proof (declare_active d t (first_pick pick_set (e_attribs e)) None None) as DA.
    pose proof (declare_procs d t (first_pick pick_set (e_attribs e)) None None) as DP.
    pose proof (declare_room d t (first_pick pick_set (e_attribs e)) None None W) as DR.
    rewrite D in W2, V2, P2, DA, DP, DR. cbn [fst] in *.
    destruct (declare_result _ _ _ _ _ _ _ W D) as (dec & G & TY & SET).
    destruct (intern_opt d2 dk d_add_subclass (Ok (first_pick pick_class (e_attribs e)))) as [d3 ck] eqn:I.
    destruct (intern_result VSubclass d2 dk dec _ d3 ck V2 G I) as (dec3 & G3 & K3 & PR3 & I1 & I2 & IO & IP & IA & V3).
    destruct (intern_opt d3 dk d_add_subset (Ok (first_pick pick_subset (e_attribs e)))) as [d4 sk] eqn:J.
    destruct (intern_result VSubset d3 dk dec3 _ d4 sk V3 G3 J) as (dec4 & G4 & K4 & PR4 & J1 & J2 & JO & JP & JA & V4).
    inversion H; subst. split; [congruence|split; [congruence|]].
    eapply RC_feature; [exact F|reflexivity|exact GE|exact PT| |reflexivity|reflexivity].
    split; cbn [en_dec en_class en_proc en_subset].
    + reflexivity.
    + exact G4.
    + rewrite (dk_type _ _ K4), (dk_type _ _ K3). reflexivity.
    + intros s S. rewrite (dk_set _ _ K4), (dk_set _ _ K3). destruct SET as [SET|(SET & _)]; congruence.
    + intros ck' C. destruct (I1 _ C) as (x & X & Y). exists x. split; [congruence|]. unfold class_vocab. rewrite F. cbn.
      apply (dk_subclass _ _ K4). exact Y.
    + intros c C R. apply (I2 c); [congruence|]. apply (DR R _ _ VSubclass G).
    + intros sk' S. destruct (J1 _ S) as (x & X & Y). split; [exact F|]. exists x. split; [congruence|exact Y].
    + intros x _ S R. apply (J2 x); [congruence|]. unfold v_size. rewrite (IO VSubset) by discriminate. apply (DR R _ _ VSubset G).
Qed.

(* the whole of encode: the final references *)
Inductive enc_case (d : document) (e : elementdata) (ctx : option nat) (d1 : document) (n : encoding) : Prop :=
  | EC_none : e_encodable e = false -> doc_decls d1 = doc_decls d -> n = no_refs -> enc_case d e ctx d1 n
  | EC_annot t dk dec : e_encodable e = true -> et_annotationtype (e_type e) = Some t -> described d d1 e n t dk dec -> en_subset n = None ->
      (forall pk, en_proc n = Some pk -> In pk (d_processors dec)) ->
      (forall id pk, first_pick pick_processor (e_attribs e) = Some id -> get_processor_key_by_id d id = Some pk -> en_proc n = Some pk) ->
      ((forall id, first_pick pick_processor (e_attribs e) = Some id -> get_processor_key_by_id d id = None) ->
       en_proc n = match d_processors dec with [p] => Some p | _ => doc_active d end) -> enc_case d e ctx d1 n
  | EC_feature pk parent t dk dec : e_encodable e = true -> e_type e = ET_Feature -> ctx = Some pk -> get_elementdata d pk = Some parent -> et_annotationtype (e_type parent) = Some t ->
      described d d1 e n t dk dec ->
      (forall pk, en_proc n = Some pk -> In pk (d_processors dec)) ->
      (forall id pk, first_pick pick_processor (e_attribs e) = Some id -> get_processor_key_by_id d id = Some pk -> en_proc n = Some pk) ->
      ((forall id, first_pick pick_processor (e_attribs e) = Some id -> get_processor_key_by_id d id = None) -> en_proc n = None) -> enc_case d e ctx d1 n
  | EC_other : e_encodable e = true -> et_annotationtype (e_type e) = None -> e_type e <> ET_Feature -> doc_decls d1 = doc_decls d ->
      en_dec n = None -> en_class n = None -> en_subset n = None ->
      (forall id pk, first_pick pick_processor (e_attribs e) = Some id -> get_processor_key_by_id d id = Some pk -> en_proc n = Some pk) ->
      ((forall id, first_pick pick_processor (e_attribs e) = Some id -> get_processor_key_by_id d id = None) -> en_proc n = None) -> enc_case d e ctx d1 n.

Lemma filter_id {A} (f : A -> bool) l : (forall x, In x l -> f x = true) -> filter f l = l.
Proof. induction l as [|x l IH]; intros H; [reflexivity|]. cbn. rewrite (H x (or_introl eq_refl)), IH; [reflexivity|]. intros y I. apply H. right; exact I. Qed.
Lemma decl_keeps_assoc dec pk : decl_keeps dec (d_with_processors dec (push_if_absent pk (d_processors dec))).
Proof.
  split; try reflexivity; try apply sub_get_refl. cbn. unfold push_if_absent. destruct (mem_nat pk (d_processors dec)).
  - exists []. rewrite app_nil_r. reflexivity. - eexists; reflexivity.
Qed.
Lemma encode_spec d e ctx d1 e1 : doc_ok d -> vocabs_ok d -> procs_ok d -> textual (e_attribs e) -> encode d e ctx = (d1, Ok e1) ->
  (doc_ok d1 /\ vocabs_ok d1 /\ procs_ok d1) /\ doc_active d1 = doc_active d /\ doc_procs d1 = doc_procs d /\
  exists n, e1 = e_with_attribs e (filter (fun a => negb (a_encodable a)) (e_attribs e) ++ refs n) /\ refs_ok d1 (e_type e) n /\ enc_case d e ctx d1 n.
Proof.
  intros W V P T H. unfold encode in H. destruct (e_encodable e) eqn:EN; cbn [negb] in H.
  2:{ inversion H; subst. split; [auto|]. split; [reflexivity|]. split; [reflexivity|]. exists no_refs. split; [|split; [split; try discriminate; intros Q; destruct (Q eq_refl)|apply EC_none; auto]].
      cbn. rewrite app_nil_r. rewrite filter_id; [destruct e1; reflexivity|]. intros a I. unfold e_encodable in EN.
      destruct (a_encodable a) eqn:X; [|reflexivity]. exfalso.
      assert (Q : existsb a_encodable (e_attribs e1) = true) by (apply existsb_exists; eauto). congruence. }
  apply sbind_ok in H. destruct H as (d2 & n & H & E). inversion E; subst d1 e1; clear E.
  destruct (encode_refs_spec _ _ _ _ _ W V P T H) as ((W2 & V2 & P2) & A2 & PR2 & C).
  assert (EP : e_processor e = Ok (first_pick pick_processor (e_attribs e))) by (apply scan_decoded_textual, T).
  assert (Hd : forall t s a f, g_decl normal (d_new t s a f)) by (intros; repeat split).
  assert (OK : doc_ok (encode_assoc d2 (encode_explicit d2 e n)) /\ vocabs_ok (encode_assoc d2 (encode_explicit d2 e n)) /\ procs_ok (encode_assoc d2 (encode_explicit d2 e n))).
  { apply (prims0_ok d2); auto. eapply encode_assoc_p0, H. }
  split; [exact OK|]. destruct OK as (W3 & V3 & P3).
  assert (AS : doc_active (encode_assoc d2 (encode_explicit d2 e n)) = doc_active d2 /\ doc_procs (encode_assoc d2 (encode_explicit d2 e n)) = doc_procs d2).
  { unfold encode_assoc. destruct (en_test _); [|auto]. destruct (en_dec _); [|auto]. destruct (en_proc _); [|auto].
    match goal with |- context [assoc_processor ?a ?b ?c] => destruct (assoc_parts a b c) as (_ & X & Y & _); rewrite X, Y; auto end. }
  destruct AS as (AS1 & AS2). split; [congruence|]. split; [congruence|].
  exists (encode_explicit d2 e n). split; [reflexivity|].
  (* the explicit processor *)
  assert (X : (exists id pk, first_pick pick_processor (e_attribs e) = Some id /\ get_processor_key_by_id d id = Some pk /\
                encode_explicit d2 e n = mkEnc (en_dec n) (en_class n) (Some pk) (en_subset n) true) \/
              ((forall id, first_pick pick_processor (e_attribs e) = Some id -> get_processor_key_by_id d id = None) /\ encode_explicit d2 e n = n)).
  { unfold encode_explicit. rewrite EP. destruct (first_pick pick_processor (e_attribs e)) as [id|]; [|right; split; [discriminate|reflexivity]].
    unfold get_processor_key_by_id. rewrite PR2. destruct (st_id_to_key (doc_procs d) id) as [pk|] eqn:K.
    - left. exists id, pk. auto.
    - right. split; [|reflexivity]. intros id' E. inversion E; subst. exact K. }
  assert (GD : forall dk dec, en_dec n = Some dk -> get_declaration d2 dk = Some dec -> forall n', encode_explicit d2 e n = n' ->
     exists dec', get_declaration (encode_assoc d2 n') dk = Some dec' /\ decl_keeps dec dec' /\
       (en_test n' = false -> dec' = dec) /\
       (en_test n' = true -> forall pk, en_proc n' = Some pk -> d_processors dec' = push_if_absent pk (d_processors dec))).
  { intros dk dec E G n' N'. unfold encode_assoc. assert (E' : en_dec n' = Some dk) by (subst n'; rewrite encode_explicit_dec; exact E).
    rewrite E'. destruct (en_test n'); [|exists dec; split; [exact G|split; [apply decl_keeps_refl|split; [reflexivity|discriminate]]]].
    destruct (en_proc n') as [pk|]; [|exists dec; split; [exact G|split; [apply decl_keeps_refl|split; [discriminate|discriminate]]]].
    rewrite get_assoc_decl, Nat.eqb_refl, G. cbn [option_map]. eexists. split; [reflexivity|]. split; [apply decl_keeps_assoc|].
    split; [discriminate|]. intros _ pk' Q. inversion Q; subst. reflexivity. }
  (* the processor exists *)
  assert (PX : forall pk, (exists id, get_processor_key_by_id d id = Some pk) \/ has_proc d2 pk -> exists p, get_processor (encode_assoc d2 (encode_explicit d2 e n)) pk = Some p).
  { intros pk Q. unfold get_processor. rewrite AS2, PR2. destruct Q as [(id & K)|(p & G)].
    - destruct (procs_index _ _ _ W K) as (p & G & _). exists p. exact G.
    - exists p. unfold get_processor in G. congruence. }
  assert (EXC : en_dec (encode_explicit d2 e n) = en_dec n /\ en_class (encode_explicit d2 e n) = en_class n /\ en_subset (encode_explicit d2 e n) = en_subset n).
  { destruct X as [(id & pk & _ & _ & ->)|(_ & ->)]; auto. }
  destruct EXC as (X1 & X2 & X3).
  assert (RO : (forall dk dec, en_dec n = Some dk -> get_declaration d2 dk = Some dec -> exists t, described d d2 e n t dk dec /\
                  (forall a, et_annotationtype (e_type e) = Some a -> t = a)) -> (en_dec n = None -> n = no_refs) -> (forall pk, en_proc n = Some pk -> has_proc d2 pk) ->
                (forall dk, en_dec n = Some dk -> exists dec, get_declaration d2 dk = Some dec) ->
                (en_dec n <> None -> e_type e = ET_Feature \/ et_annotationtype (e_type e) <> None) ->
                (forall dk dec pk, en_dec n = Some dk -> get_declaration d2 dk = Some dec -> en_test n = false -> en_proc n = Some pk -> In pk (d_processors dec)) ->
                refs_ok (encode_assoc d2 (encode_explicit d2 e n)) (e_type e) (encode_explicit d2 e n)).
  { intros DS NN HP GG KI LI. split; rewrite ?X1, ?X2, ?X3; [| | | |exact KI|].
    - intros dk E. destruct (GG _ E) as (dec & G). destruct (DS _ _ E G) as (t & D & TT). destruct (GD _ _ E G _ eq_refl) as (dec' & G' & K' & _).
      exists dec'. split; [exact G'|]. intros a Q. rewrite (dk_type _ _ K'), (ds_type _ _ _ _ _ _ _ D). apply TT, Q.
    - intros ck E. destruct (en_dec n) as [dk|] eqn:ED; [|rewrite (NN eq_refl) in E; discriminate].
      destruct (GG _ eq_refl) as (dec & G). destruct (DS _ _ eq_refl G) as (t & D & TT). destruct (GD _ _ eq_refl G _ eq_refl) as (dec' & G' & K' & _).
      destruct (ds_class _ _ _ _ _ _ _ D _ E) as (c & _ & VC). exists dk, dec', c. split; [reflexivity|]. split; [exact G'|].
      apply (v_keeps _ _ _ K') in VC. unfold class_vocab in VC. destruct (et_eqb (e_type e) ET_Feature); exact VC.
    - intros pk E. apply PX. destruct X as [(id & pk' & _ & K & Q)|(_ & Q)]; rewrite Q in E.
      + cbn in E. inversion E; subst. left; eauto. + right. apply HP, E.
    - intros sk E. destruct (en_dec n) as [dk|] eqn:ED; [|rewrite (NN eq_refl) in E; discriminate].
      destruct (GG _ eq_refl) as (dec & G). destruct (DS _ _ eq_refl G) as (t & D & TT). destruct (GD _ _ eq_refl G _ eq_refl) as (dec' & G' & K' & _).
      destruct (ds_subset _ _ _ _ _ _ _ D _ E) as (F & c & _ & VC). split; [exact F|]. exists dk, dec', c. split; [reflexivity|]. split; [exact G'|].
      apply (dk_subset _ _ K'), VC.
    - intros pk dk E ED. destruct (GG _ ED) as (dec & G). destruct (GD _ _ ED G _ eq_refl) as (dec' & G' & K' & S0 & S1). exists dec'. split; [exact G'|].
      destruct (en_test (encode_explicit d2 e n)) eqn:TE; [rewrite (S1 eq_refl _ E); apply push_if_absent_In|]. rewrite (S0 eq_refl).
      destruct X as [(id & pk' & _ & _ & Q)|(_ & Q)]; rewrite Q in *; [discriminate|]. eapply LI; eassumption. }
  destruct C as [t dk dec AT DS NS (PR & T1 & T0)|pk parent t dk dec F CX GP GT DS NP NT|AT NF ED EN'].
  - pose proof (ds_dec _ _ _ _ _ _ _ DS) as ED. pose proof (ds_get _ _ _ _ _ _ _ DS) as EG.
    split.
    { apply RO; eauto.
      - intros dk' dec0 E1 E2. assert (dk' = dk) by congruence. subst dk'. assert (dec0 = dec) by congruence. subst dec0.
        exists t. split; [exact DS|]. congruence.
      - congruence.
      - intros pk E. rewrite PR in E. destruct (d_processors dec) as [|p [|q r]] eqn:DP.
        + apply (po_active _ P2 _ E).
        + inversion E; subst. apply (po_decl _ P2 _ _ _ EG). rewrite DP. left; reflexivity.
        + apply (po_active _ P2 _ E).
      - intros dk' E1. assert (dk' = dk) by congruence. subst dk'. eauto.
      - intros _. right. congruence.
      - intros dk' dec0 pk E1 E2 TE E. assert (dk' = dk) by congruence. subst dk'. assert (dec0 = dec) by congruence. subst dec0. apply (T0 TE), E. }
    destruct (GD _ _ ED EG _ eq_refl) as (dec' & G' & K' & S0 & S1).
    eapply (EC_annot _ _ _ _ _ t dk dec').
    + exact EN.
    + exact AT.
    + eapply described_keeps; [exact DS|exact G'|exact K'|exact X1|exact X2|exact X3].
    + rewrite X3. exact NS.
    + intros pk E. destruct (en_test (encode_explicit d2 e n)) eqn:TE.
      * rewrite (S1 eq_refl _ E). apply push_if_absent_In.
      * rewrite (S0 eq_refl). destruct X as [(id & pk' & _ & _ & Q)|(_ & Q)]; rewrite Q in *; [discriminate|]. apply (T0 TE), E.
    + intros id pk E1 E2. destruct X as [(id' & pk' & Q1 & Q2 & Q)|(Q1 & Q)]; rewrite Q; cbn.
      * congruence. * rewrite (Q1 _ E1) in E2. discriminate.
    + intros NO. destruct X as [(id' & pk' & Q1 & Q2 & Q)|(Q1 & Q)]; [rewrite (NO _ Q1) in Q2; discriminate|].
      rewrite Q in *. rewrite PR, A2. destruct (en_test n) eqn:TE.
      * destruct (T1 eq_refl) as (E1 & pk & E2 & NI). rewrite E2 in E1. rewrite (S1 eq_refl _ E1).
        unfold push_if_absent. destruct (mem_nat pk (d_processors dec)) eqn:M; [exfalso; apply NI, mem_nat_In, M|].
        rewrite PR in E1. destruct (d_processors dec) as [|p [|q r]].
        -- cbn. congruence.
        -- cbn. inversion E1; subst. exfalso. apply NI. left; reflexivity.
        -- reflexivity.
      * rewrite (S0 eq_refl). reflexivity.
  - pose proof (ds_dec _ _ _ _ _ _ _ DS) as ED. pose proof (ds_get _ _ _ _ _ _ _ DS) as EG.
    split.
    { apply RO; eauto.
      - intros dk' dec0 E1 E2. assert (dk' = dk) by congruence. subst dk'. assert (dec0 = dec) by congruence. subst dec0.
        exists t. split; [exact DS|]. rewrite F. discriminate.
      - congruence.
      - intros pk' E. congruence.
      - intros dk' E1. assert (dk' = dk) by congruence. subst dk'. eauto.
      - intros dk' dec0 pk' _ _ _ E. congruence. }
    destruct (GD _ _ ED EG _ eq_refl) as (dec' & G' & K' & S0 & S1).
    eapply (EC_feature _ _ _ _ _ pk parent t dk dec'); auto.
    + eapply described_keeps; [exact DS|exact G'|exact K'|exact X1|exact X2|exact X3].
    + intros pk' E. destruct X as [(id' & pk'' & Q1 & Q2 & Q)|(Q1 & Q)]; rewrite Q in *; cbn in E; [|congruence].
      cbn in S1. rewrite (S1 eq_refl _ eq_refl). inversion E; subst. apply push_if_absent_In.
    + intros id pk' E1 E2. destruct X as [(id' & pk'' & Q1 & Q2 & Q)|(Q1 & Q)]; rewrite Q; cbn.
      * congruence. * rewrite (Q1 _ E1) in E2. discriminate.
    + intros NO. destruct X as [(id' & pk' & Q1 & Q2 & Q)|(Q1 & Q)]; [rewrite (NO _ Q1) in Q2; discriminate|]. rewrite Q. exact NP.
  - subst d2 n. split.
    { apply RO; cbn; try discriminate; auto. }
    apply EC_other; auto; try (rewrite ?X1, ?X2, ?X3; reflexivity).
    + clear RO. unfold encode_assoc. rewrite X1. cbn. destruct (en_test _); reflexivity.
    + intros id pk' E1 E2. destruct X as [(id' & pk'' & Q1 & Q2 & Q)|(Q1 & Q)]; rewrite Q; cbn.
      * congruence. * rewrite (Q1 _ E1) in E2. discriminate.
    + intros NO. destruct X as [(id' & pk' & Q1 & Q2 & Q)|(Q1 & Q)]; [rewrite (NO _ Q1) in Q2; discriminate|]. rewrite Q. reflexivity.
Qed.

(* ---------------------------------------------------------------- the invariant of reachable documents *)
Lemma plain_filter l : textual l -> Forall plain (filter (fun a => negb (a_encodable a)) l).
Proof.
  intros T. apply Forall_forall. intros a I. apply filter_In in I. destruct I as (I & E). split; [apply negb_true_iff, E|apply T, I].
Qed.
Lemma full_prim a b : prim normal a b -> full_ok a -> full_ok b.
Proof.
  intros P (W & V & PO & EO). assert (Hd : forall t s x f, g_decl normal (d_new t s x f)) by (intros; repeat split).
  destruct P as [a b P|d e ctx T].
  - split; [eapply prim0_ok|split; [eapply (vocabs_prim0 normal); [exact decl_fresh_wf| |]|split; [eapply procs_prim0|eapply enc_prim0]]]; eassumption.
  - assert (W' : doc_ok (fst (store_add d e ctx))) by (eapply (prims_ok normal Hd); [apply rtc_one, P_store, T|exact W]).
    pose proof (prims0_ok _ _ (encode_p0 normal Hd d e ctx) W V PO) as (We & Ve & Pe).
    pose proof (encode_le d e ctx) as L. pose proof (encode_elements d e ctx) as EE.
    assert (EO' : forall d1, fst (encode d e ctx) = d1 -> enc_ok d1).
    { intros d1 <-. unfold enc_ok. rewrite EE. intros k x G. eapply enc_state_le; [exact L|]. apply (EO _ _ G). }
    assert (CH : forall d1 s, doc_le d1 (doc_with_elements d1 s) \/ True) by (intros; right; exact I). clear CH.
    pose proof (store_add_cases d e ctx) as C. remember (fst (store_add d e ctx)) as d2. remember (snd (store_add d e ctx)) as r.
    clear Heqd2 Heqr. split; [exact W'|].
    destruct C as [d1 e1 id k E I J|d1 e1 s E N' B IT IX|d1 e1 E N' B|d1 r E NR]; rewrite E in *; cbn [fst] in *.
    + split; [exact Ve|]. split; [exact Pe|]. apply EO'; reflexivity.
    + split; [exact Ve|]. split; [destruct Pe as [P1 P2 P3 P4 P5]; split; assumption|].
      intros k x G. unfold get_elementdata in *. docs. rewrite (st_get_snoc _ _ _ _ IT) in G.
      assert (Q : enc_state d1 (e_type x) (e_attribs x)).
      { destruct (Nat.eqb_spec k (st_len (doc_elements d))) as [->|NE].
        - inversion G; subst x. destruct (encode_spec _ _ _ _ _ W V PO T E) as (_ & _ & _ & n & -> & R & _).
          exists (filter (fun a => negb (a_encodable a)) (e_attribs e)), n. split; [reflexivity|]. split; [apply plain_filter, T|exact R].
        - apply (EO' d1 eq_refl k). rewrite EE. exact G. }
      destruct Q as (p & n & Q1 & Q2 & [R1 R2 R3 R4 R5 R6]). exists p, n. split; [exact Q1|]. split; [exact Q2|]. split; assumption.
    + split; [exact Ve|]. split; [exact Pe|]. apply EO'; reflexivity.
    + split; [exact Ve|]. split; [exact Pe|]. apply EO'; reflexivity.
Qed.
Lemma full_prims a b : prims normal a b -> full_ok a -> full_ok b.
Proof. intros R. induction R; [auto|]. intros F. apply IHR. eapply full_prim; eassumption. Qed.
Lemma full_empty id ad : full_ok (doc_empty id ad).
Proof.
  split; [apply doc_ok_empty|]. split; [intros k x G; destruct k; discriminate|].
  split; [split; cbn; try discriminate; try (intros k; intros; destruct k; discriminate); intros ? []|intros k x G; destruct k; discriminate].
Qed.
Theorem reachable_full d : reachable normal d -> full_ok d.
Proof. intros R. destruct (reachable_prims normal d normal_ok R) as (id & ad & P). eapply full_prims; [exact P|apply full_empty]. Qed.

(* ---------------------------------------------------------------- what a stored element reports *)
Section Report.
Variables (d : document) (e : elementdata) (p : list Attribute) (n : encoding).
Hypothesis Ha : e_attribs e = p ++ refs n.
Hypothesis Hp : Forall plain p.
Lemma rep_dec : r_declaration_key e = Ok (en_dec n).
Proof. destruct e as [ty a da k pa]. cbn in Ha. subst a. unfold r_declaration_key. rewrite (shape_dec ty p n da k pa Hp). reflexivity. Qed.
Lemma rep_class_key : r_class_key e = Ok (en_class n).
Proof. destruct e as [ty a da k pa]. cbn in Ha. subst a. unfold r_class_key. rewrite (shape_class ty p n da k pa Hp). reflexivity. Qed.
Lemma rep_subset_key : r_subset_key e = Ok (en_subset n).
Proof. destruct e as [ty a da k pa]. cbn in Ha. subst a. unfold r_subset_key. rewrite (shape_subset ty p n da k pa Hp). reflexivity. Qed.
Lemma rep_proc_key : r_processor_key e = Ok (en_proc n).
Proof. destruct e as [ty a da k pa]. cbn in Ha. subst a. unfold r_processor_key. rewrite (shape_proc ty p n da k pa Hp). reflexivity. Qed.
Lemma rep_declaration : r_declaration d e = Ok (obind (en_dec n) (get_declaration d)).
Proof. unfold r_declaration. rewrite rep_dec. reflexivity. Qed.
Lemma rep_set : r_set d e = Ok (obind (obind (en_dec n) (get_declaration d)) d_set).
Proof. unfold r_set. rewrite rep_declaration. reflexivity. Qed.
Lemma rep_subset : r_subset d e = Ok (obind (obind (en_dec n) (get_declaration d)) (fun dec => obind (en_subset n) (d_get_subset dec))).
Proof. unfold r_subset. rewrite rep_declaration, rep_subset_key. destruct (obind (en_dec n) (get_declaration d)); reflexivity. Qed.
Lemma rep_class : r_class d e = Ok (obind (en_class n) (fun ck => obind (obind (en_dec n) (get_declaration d)) (fun dec =>
    match en_subset n with Some _ => d_get_subclass dec ck | None => d_get_class dec ck end))).
Proof.
  unfold r_class. rewrite rep_declaration, rep_subset_key, rep_class_key. destruct (en_class n); [|reflexivity]. cbn.
  destruct (obind (en_dec n) (get_declaration d)); [|reflexivity]. cbn. destruct (en_subset n); reflexivity.
Qed.
Lemma rep_proc_data : r_processor_data d e = Ok (obind (en_proc n) (get_processor d)).
Proof. unfold r_processor_data. rewrite rep_proc_key. reflexivity. Qed.
Lemma rep_proc : r_processor d e = Ok (option_map pr_id (obind (en_proc n) (get_processor d))).
Proof. unfold r_processor. rewrite rep_proc_data. reflexivity. Qed.
Lemma rep_annotator : r_annotator d e = Ok (match obind (en_proc n) (get_processor d) with Some q => Some (pr_name q) | None => attribs_annotator (e_attribs e) end).
Proof. unfold r_annotator. rewrite rep_proc_data. cbn [rbind]. destruct (obind (en_proc n) (get_processor d)); reflexivity. Qed.
Lemma rep_annotatortype : r_annotatortype d e = Ok (match obind (en_proc n) (get_processor d) with Some q => Some (pr_type q) | None => attribs_annotatortype (e_attribs e) end).
Proof. unfold r_annotatortype. rewrite rep_proc_data. cbn [rbind]. destruct (obind (en_proc n) (get_processor d)); reflexivity. Qed.
End Report.

(* a feature without subset: its class is looked up among the wrong classes *)
Definition bare_feature (e : elementdata) : Prop := e_type e = ET_Feature /\ e_has_attrib e AB_SUBSET = false.
(* a layer without set may get one later *)
Definition bare_layer (e : elementdata) : Prop := group_contains EG_Layer (e_type e) = true /\ e_has_attrib e AB_SET = false.

Lemma has_subset_refs p n : Forall plain p -> forall t d k q, e_has_attrib (mkElem t (p ++ refs n) d k q) AB_SUBSET = match en_subset n with Some _ => true | None => false end.
Proof.
  intros F t d k q. rewrite has_attrib_app. replace (existsb (fun a => ab_eqb (attribtype a) AB_SUBSET) p) with false.
  - unfold refs, opt_attr. destruct (en_dec n), (en_class n), (en_proc n), (en_subset n); reflexivity.
  - symmetry. apply not_true_is_false. intros X. apply existsb_exists in X. destruct X as (a & I & X).
    apply Forall_forall with (x := a) in F; [|exact I]. destruct F as (A & B). destruct a; cbn in *; discriminate.
Qed.

(* reading the same element in a later document *)
Lemma report_le d d2 e e2 : doc_le d d2 -> enc_state d (e_type e) (e_attribs e) -> e_type e2 = e_type e -> e_attribs e2 = e_attribs e ->
  r_set d2 e2 = r_set d e /\ r_subset d2 e2 = r_subset d e /\ r_processor d2 e2 = r_processor d e /\ r_annotator d2 e2 = r_annotator d e /\
  r_annotatortype d2 e2 = r_annotatortype d e /\ e_id e2 = e_id e /\ (~ bare_feature e -> r_class d2 e2 = r_class d e).
Proof.
  intros L (p & n & A & F & [R1 R2 R3 R4]) TY A2. pose proof A as A2'. rewrite <- A2 in A2'.
  assert (DD : match en_dec n with Some dk => exists dec dec2, get_declaration d dk = Some dec /\ get_declaration d2 dk = Some dec2 /\ decl_keeps dec dec2 | None => True end).
  { destruct (en_dec n) as [dk|]; [|exact I]. destruct (R1 dk eq_refl) as (dec & G & _). destruct (doc_le_decl _ _ _ _ L G) as (dec2 & G2 & K). eauto. }
  assert (DP : match en_proc n with Some pk => exists q q2, get_processor d pk = Some q /\ get_processor d2 pk = Some q2 /\ pr_id q2 = pr_id q /\ pr_name q2 = pr_name q /\ pr_type q2 = pr_type q | None => True end).
  { destruct (en_proc n) as [pk|]; [|exact I]. destruct (R3 pk eq_refl) as (q & G). destruct (doc_le_proc _ _ _ _ L G) as (q2 & G2 & [(l & par & ->)]).
    exists q, (pr_with_processors (pr_processors q ++ l) (pr_with_parent par q)). destruct q; auto. }
  rewrite (rep_set d2 e2 p n A2' F), (rep_set d e p n A F), (rep_subset d2 e2 p n A2' F), (rep_subset d e p n A F),
    (rep_class d2 e2 p n A2' F), (rep_class d e p n A F), (rep_proc d2 e2 p n A2' F), (rep_proc d e p n A F),
    (rep_annotator d2 e2 p n A2' F), (rep_annotator d e p n A F), (rep_annotatortype d2 e2 p n A2' F), (rep_annotatortype d e p n A F).
  rewrite A2. split; [|split; [|split; [|split; [|split; [|split]]]]].
  - destruct (en_dec n) as [dk|]; [|reflexivity]. destruct DD as (dec & dec2 & G & G2 & K). cbn. rewrite G, G2. cbn. rewrite (dk_set _ _ K). reflexivity.
  - destruct (en_subset n) as [sk|] eqn:ES.
    + destruct (R4 sk eq_refl) as (_ & dk & dec & c & ED & G & V). rewrite ED in *. destruct DD as (dec' & dec2 & G' & G2 & K). cbn. rewrite G', G2. cbn.
      assert (dec' = dec) by congruence. subst dec'. rewrite V, (dk_subset _ _ K _ _ V). reflexivity.
    + destruct (obind (en_dec n) (get_declaration d2)), (obind (en_dec n) (get_declaration d)); reflexivity.
  - destruct (en_proc n) as [pk|]; [|reflexivity]. destruct DP as (q & q2 & G & G2 & E1 & E2 & E3). cbn. rewrite G, G2. cbn. congruence.
  - destruct (en_proc n) as [pk|]; [|reflexivity]. destruct DP as (q & q2 & G & G2 & E1 & E2 & E3). cbn. rewrite G, G2. cbn. congruence.
  - destruct (en_proc n) as [pk|]; [|reflexivity]. destruct DP as (q & q2 & G & G2 & E1 & E2 & E3). cbn. rewrite G, G2. cbn. congruence.
  - unfold e_id. rewrite A2. reflexivity.
  - intros NB. destruct (en_class n) as [ck|] eqn:EC; [|reflexivity]. cbn.
    destruct (R2 ck eq_refl) as (dk & dec & c & ED & G & V). rewrite ED in *. destruct DD as (dec' & dec2 & G' & G2 & K). cbn. rewrite G', G2. cbn.
    assert (dec' = dec) by congruence. subst dec'. clear G'. destruct (en_subset n) as [sk|] eqn:ES.
    + destruct (R4 sk eq_refl) as (FT & _). rewrite FT in V. cbn in V. rewrite V, (dk_subclass _ _ K _ _ V). reflexivity.
    + destruct (et_eqb_spec (e_type e) ET_Feature) as [FT|NF].
      * exfalso. apply NB. split; [exact FT|]. destruct e as [ty a da k pa]. cbn in A. subst a. rewrite (has_subset_refs p n F), ES. reflexivity.
      * rewrite V, (dk_class _ _ K _ _ V). reflexivity.
Qed.

(* ---------------------------------------------------------------- adding an element *)
Lemma enc_case_decls d e ctx d1 d2 n : doc_decls d2 = doc_decls d1 -> enc_case d e ctx d1 n -> enc_case d e ctx d2 n.
Proof.
  intros E C. assert (DS : forall t dk dec, described d d1 e n t dk dec -> described d d2 e n t dk dec).
  { intros t dk dec [A1 A2 A3 A4 A5 A6 A7 A8]. split; auto. unfold get_declaration in *. rewrite E. exact A2. }
  destruct C; [apply EC_none|eapply EC_annot|eapply EC_feature|apply EC_other]; try congruence; eauto.
Qed.
Lemma refs_ok_stores d1 d2 t n : doc_decls d2 = doc_decls d1 -> doc_procs d2 = doc_procs d1 -> refs_ok d1 t n -> refs_ok d2 t n.
Proof. intros E F [A B C D]. split; unfold get_declaration, get_processor in *; rewrite ?E, ?F; assumption. Qed.
Definition new_id (d : document) (e : elementdata) : Prop := forall id, e_id e = Some id -> get_element_key_by_id d id = None.
Lemma store_add_spec d e ctx d1 k : full_ok d -> textual (e_attribs e) -> new_id d e -> store_add d e ctx = (d1, Ok k) ->
  exists n, get_elementdata d1 k = Some (mkElem (e_type e) (filter (fun a => negb (a_encodable a)) (e_attribs e) ++ refs n) (e_data e) (Some k) (e_parent e)) /\
    refs_ok d1 (e_type e) n /\ enc_case d e ctx d1 n /\ doc_active d1 = doc_active d /\ doc_procs d1 = doc_procs d.
Proof.
  intros (W & V & P & EO) T N H. pose proof (store_add_cases d e ctx) as C. rewrite H in C. cbn [fst snd] in C.
  inversion C as [d' e1 id k' E I J|d' e1 s E N' B IT IX|d' e1 E N' B|d' r E NR Q R1]; subst.
  - rewrite (N _ I) in J. discriminate.
  - destruct (encode_spec _ _ _ _ _ W V P T E) as (_ & A & PR & n & -> & R & EC). exists n. split; [|split; [|split; [|split]]].
    + unfold get_elementdata. docs_g. rewrite (st_get_snoc _ _ _ _ IT), Nat.eqb_refl. reflexivity.
    + eapply refs_ok_stores; [| |exact R]; reflexivity.
    + eapply enc_case_decls; [|exact EC]. reflexivity.
    + exact A.
    + exact PR.
  - destruct r; discriminate || (exfalso; eapply NR; reflexivity).
Qed.

(* elements built into an element, at any depth *)
Inductive nested : elementdata -> elementdata -> Prop :=
  | nested_child c e : In (DAddElement c) (e_data e) -> nested c e
  | nested_deep x c e : nested x c -> In (DAddElement c) (e_data e) -> nested x e.
Definition e_index_of (d : document) : smap nat := st_index (doc_elements d).
Lemma prim0_index g a b : prim0 g a b -> e_index_of b = e_index_of a.
Proof. intros P. unfold e_index_of. destruct P; rewrite ?add_declaration_fst, ?add_provenance_fst; docs_g; reflexivity. Qed.
Lemma prims0_index g a b : prims0 g a b -> e_index_of b = e_index_of a.
Proof. intros R. induction R as [|a b c S R IH]; [reflexivity|]. rewrite IH. eapply prim0_index, S. Qed.
Lemma store_add_index d e ctx id : get_element_key_by_id (fst (store_add d e ctx)) id = get_element_key_by_id d id \/ e_id e = Some id.
Proof.
  pose proof (store_add_cases d e ctx) as C. remember (fst (store_add d e ctx)) as d2. remember (snd (store_add d e ctx)) as r.
  clear Heqd2 Heqr. unfold get_element_key_by_id, st_id_to_key.
  destruct C as [d1 e1 id' k E I J|d1 e1 s E N' B IT IX|d1 e1 E N' B|d1 r E NR];
    pose proof (encode_elements d e ctx) as EE; rewrite E in EE; cbn [fst] in EE; docs_g; rewrite ?EE; auto.
  rewrite IX. destruct (e_id e) as [id'|]; [|auto]. destruct (String.eqb_spec id id') as [->|N]; [auto|].
  left. apply smap_get_insert_other. congruence.
Qed.
Lemma add_data_index fuel l : Forall (opt_elem (fun e => forall d d1 x, add_children fuel d e = (d1, Ok x) -> forall id, (forall c, nested c e -> e_id c <> Some id) ->
    get_element_key_by_id d1 id = get_element_key_by_id d id)) l ->
  forall d d1 x, add_data fuel d l = (d1, Ok x) -> forall id, (forall c, In (DAddElement c) l -> e_id c <> Some id /\ forall b, nested b c -> e_id b <> Some id) ->
    get_element_key_by_id d1 id = get_element_key_by_id d id.
Proof.
  intros F. induction F as [|x l HX F IH]; intros d d1 y H id N; cbn [add_data] in H; [inversion H; reflexivity|].
  assert (N' : forall c, In (DAddElement c) l -> e_id c <> Some id /\ forall b, nested b c -> e_id b <> Some id) by (intros c I; apply N; right; exact I).
  destruct x as [s|k|s|k|c]; cbn in HX;
    try (apply sbind_ok in H; destruct H as (d2 & z & H & E); inversion E; subst; eapply IH; eassumption).
  apply sbind_ok in H. destruct H as (d2 & z & H1 & H). apply sbind_ok in H. destruct H as (d3 & ck & H2 & H).
  apply sbind_ok in H. destruct H as (d4 & u & H3 & H). apply sbind_ok in H. destruct H as (d5 & w & H4 & H). inversion H; subst.
  rewrite (IH _ _ _ H4 id N').
  destruct (N c (or_introl eq_refl)) as (N1 & N2).
  pose proof (prims0_index anything _ _ (link_children_p0 anything fuel (opt_list (snd z)) d3 ck)) as LI. rewrite H3 in LI. cbn [fst] in LI.
  transitivity (get_element_key_by_id d3 id); [unfold get_element_key_by_id, st_id_to_key; unfold e_index_of in LI; rewrite LI; reflexivity|].
  pose proof (store_add_index d2 (fst z) None id) as SI. rewrite H2 in SI. cbn [fst] in SI.
  destruct (add_children_shape _ _ _ _ _ H1) as (dl & SH). rewrite SH in SI.
  destruct SI as [SI|SI]; [|exfalso; apply N1; destruct c; exact SI]. rewrite SI. apply (HX _ _ _ H1 id N2).
Qed.
Lemma add_children_index fuel e : forall d d1 x, add_children fuel d e = (d1, Ok x) -> forall id, (forall c, nested c e -> e_id c <> Some id) ->
  get_element_key_by_id d1 id = get_element_key_by_id d id.
Proof.
  induction e as [e IH] using elem_ind. intros d d1 x H id N. rewrite add_children_eq in H.
  destruct (existsb is_add (e_data e)); [|inversion H; reflexivity].
  apply sbind_ok in H. destruct H as (d2 & y & H & E). inversion E; subst.
  eapply (add_data_index fuel _ IH); [exact H|]. intros c I. split; [apply N; constructor; exact I|]. intros b B. apply N. eapply nested_deep; eassumption.
Qed.

(* the ways to add an element: Store::add with a context, add_element, add_element_to *)
Inductive added (fuel : nat) (d : document) (e : elementdata) : option nat -> document -> nat -> Prop :=
  | by_store ctx d1 k : store_add d e ctx = (d1, Ok k) -> added fuel d e ctx d1 k
  | by_add d1 k : add_element fuel d e = (d1, Ok k) -> added fuel d e None d1 k
  | by_add_to p d1 k : add_element_to fuel d p e = (d1, Ok k) -> added fuel d e (Some p) d1 k.
(* the element's ID, if it has one, is neither in the document nor used by an element built into it *)
Definition fresh_id (d : document) (e : elementdata) : Prop :=
  forall id, e_id e = Some id -> get_element_key_by_id d id = None /\ forall c, nested c e -> e_id c <> Some id.

Lemma added_steps g fuel d e ctx d1 k : guards_ok g -> elem_all (g_elem g) e -> fresh_id d e -> added fuel d e ctx d1 k ->
  exists dA l d2, prims g d dA /\ new_id dA (e_with_data e l) /\ store_add dA (e_with_data e l) ctx = (d2, Ok k) /\ prims0 g d2 d1.
Proof.
  intros GO GE F A. destruct A as [ctx d1 k H|d1 k H|p d1 k H].
  - exists d, (e_data e), d1. replace (e_with_data e (e_data e)) with e by (destruct e; reflexivity).
    split; [apply rtc_refl|]. split; [intros id I; apply (F id I)|]. split; [exact H|apply rtc_refl].
  - unfold add_element in H. apply sbind_ok in H. destruct H as (dA & x & HA & H).
    destruct (add_children_shape _ _ _ _ _ HA) as (l & SH). rewrite SH in H.
    exists dA, l, d1. pose proof (add_children_prims g fuel e GE d) as PA. rewrite HA in PA. cbn [fst] in PA.
    split; [exact PA|]. split; [|split; [exact H|apply rtc_refl]].
    intros id I. destruct (F id) as (F1 & F2); [destruct e; exact I|]. rewrite (add_children_index _ _ _ _ _ HA id F2). exact F1.
  - unfold add_element_to in H. apply sbind_ok in H. destruct H as (dA & x & HA & H).
    apply sbind_ok in H. destruct H as (d2 & child & HS & H). apply map_err_ok in HS.
    destruct (add_children_shape _ _ _ _ _ HA) as (l & SH). rewrite SH in HS.
    apply sbind_ok in H. destruct H as (d3 & u & H3 & H). apply sbind_ok in H. destruct H as (d4 & u' & H4 & H).
    apply sbind_ok in H. destruct H as (d5 & u'' & H5 & H). inversion H; subst.
    exists dA, l, d2. pose proof (add_children_prims g fuel e GE d) as PA. rewrite HA in PA. cbn [fst] in PA.
    split; [exact PA|]. split; [|split; [exact HS|]].
    + intros id I. destruct (F id) as (F1 & F2); [destruct e; exact I|]. rewrite (add_children_index _ _ _ _ _ HA id F2). exact F1.
    + pose proof (link_children_p0 g fuel (opt_list (snd x)) d2 k) as L3. rewrite H3 in L3.
      pose proof (attach_p0 g d3 p k) as L4. rewrite H4 in L4.
      pose proof (post_add_p0 g fuel d4 k None) as L5. rewrite H5 in L5. cbn [fst] in *.
      eapply rtc_trans; [exact L3|]. eapply rtc_trans; [exact L4|exact L5].
Qed.

(* vocabularies only grow *)
Lemma v_size_le v x y : decl_wf x -> decl_keeps x y -> (v_size v x <= v_size v y)%N.
Proof.
  intros W K. unfold v_size. destruct (v_store v x) as [s|] eqn:S; [|destruct (v_store v y); lia].
  destruct (length (st_items s)) as [|m] eqn:L; [destruct (v_store v y); lia|].
  assert (WS : ss_wf s).
  { destruct W as (W1 & W2 & W3). destruct v; cbn in S; rewrite S in *; assumption. }
  assert (D : st_dense s) by (eapply st_wf_dense, WS).
  destruct (D m) as (z & Z); [unfold st_len; lia|].
  assert (G : v_get v x m = Some z) by (destruct v; cbn in *; unfold d_get_class, d_get_subset, d_get_subclass, sopt_get; rewrite S; exact Z).
  apply (v_keeps v _ _ K) in G.
  assert (G' : exists s', v_store v y = Some s' /\ st_get s' m = Some z).
  { destruct v; cbn in *; unfold d_get_class, d_get_subset, d_get_subclass, sopt_get in G;
      [destruct (d_classes y)|destruct (d_subsets y)|destruct (d_subclasses y)]; try discriminate; eauto. }
  destruct G' as (s' & -> & GG). apply st_get_lt in GG. unfold st_len in GG. lia.
Qed.
Lemma room_le a b : vocabs_ok a -> doc_le a b -> room b -> room a.
Proof.
  intros V L R dk dec v G. destruct (doc_le_decl _ _ _ _ L G) as (dec2 & G2 & K).
  pose proof (v_size_le v _ _ (V _ _ G) K). specialize (R _ _ v G2). lia.
Qed.

(* ---------------------------------------------------------------- linking leaves declarations and processors alone *)
Record same_meta (a b : document) : Prop := mkSM {
  sm_decls : doc_decls b = doc_decls a; sm_procs : doc_procs b = doc_procs a; sm_active : doc_active b = doc_active a; sm_chain : doc_chain b = doc_chain a }.
Lemma same_meta_refl d : same_meta d d. Proof. split; reflexivity. Qed.
Lemma same_meta_trans a b c : same_meta a b -> same_meta b c -> same_meta a c.
Proof. intros [A1 A2 A3 A4] [B1 B2 B3 B4]. split; congruence. Qed.
Lemma upd_element_meta d k f : same_meta d (upd_element d k f).
Proof. unfold upd_element. destruct (get_elementdata d k); split; reflexivity. Qed.
Lemma attach_meta d p c : same_meta d (fst (attach_element d p c)).
Proof.
  unfold attach_element. destruct (get_elementdata d p); [|apply same_meta_refl]. destruct (get_elementdata d c) as [ce|]; [|apply same_meta_refl].
  cbn [fst]. eapply same_meta_trans; [apply upd_element_meta|]. eapply same_meta_trans; [apply upd_element_meta|].
  destruct (e_parent ce); [apply upd_element_meta|apply same_meta_refl].
Qed.
Lemma post_add_meta fuel d k st : same_meta d (fst (post_add fuel d k st)).
Proof.
  unfold post_add. destruct (get_elementdata d k) as [e|]; [|apply same_meta_refl].
  assert (L : same_meta d (fst (if group_contains EG_Layer (e_type e) && negb (e_has_attrib e AB_SET)
             then let! d0, dk := (d, layer_declaration fuel d e) in
                  match dk with
                  | Some dk0 => (upd_element d0 k (fun x => e_with_attribs x [A_DeclarationRef dk0]), Ok tt)
                  | None => (d0, Ok tt)
                  end
             else (d, Ok tt)))).
  { destruct (group_contains EG_Layer (e_type e) && negb (e_has_attrib e AB_SET)); [|apply same_meta_refl].
    destruct (layer_declaration fuel d e) as [[dk|]| | |]; cbn [sbind fst]; try apply same_meta_refl. apply upd_element_meta. }
  destruct (e_type e); try exact L. unfold post_add_wref.
  destruct (attribs_last_idref (e_attribs e) None) as [id|]; [|apply same_meta_refl].
  match goal with |- same_meta _ (fst (sbind (d, ?x) _)) => destruct x as [[sk|]| | |] end; cbn [sbind fst]; try apply same_meta_refl.
  destruct (key_by_id d id) as [[tk|]| | |]; cbn [sbind fst]; try apply same_meta_refl. apply upd_element_meta.
Qed.
Lemma link_children_meta fuel l : forall d p, same_meta d (fst (link_children fuel d p l)).
Proof.
  induction l as [|k l IH]; intros d p; cbn [link_children]; [apply same_meta_refl|]. cbv zeta.
  eapply same_meta_trans; [apply (upd_element_meta d k (e_set_parent (Some p)))|].
  pose proof (post_add_meta fuel (upd_element d k (e_set_parent (Some p))) k None) as PM.
  destruct (post_add fuel (upd_element d k (e_set_parent (Some p))) k None) as [d2 [u| | |]]; cbn [sbind fst] in *; try exact PM.
  eapply same_meta_trans; [exact PM|apply IH].
Qed.
Lemma store_add_active d e ctx d1 k : full_ok d -> textual (e_attribs e) -> store_add d e ctx = (d1, Ok k) -> doc_active d1 = doc_active d /\ doc_procs d1 = doc_procs d.
Proof.
  intros (W & V & P & _) T H. pose proof (store_add_cases d e ctx) as C. rewrite H in C. cbn [fst snd] in C.
  inversion C as [d' e1 id k' E I J|d' e1 s E N' B IT IX|d' e1 E N' B|d' r E NR Q R1]; subst;
    try (destruct (encode_spec _ _ _ _ _ W V P T E) as (_ & A & PR & _); auto).
  destruct r; discriminate || (exfalso; eapply NR; reflexivity).
Qed.
Lemma add_children_active fuel e : elem_all (fun _ l => textual l) e -> forall d d1 x, full_ok d -> add_children fuel d e = (d1, Ok x) -> doc_active d1 = doc_active d /\ doc_procs d1 = doc_procs d.
Proof.
  induction e as [e IH] using elem_ind. intros G d d1 x F H. rewrite add_children_eq in H.
  destruct (existsb is_add (e_data e)); [|inversion H; auto].
  apply sbind_ok in H. destruct H as (d2 & y & H & E). inversion E; subst. clear E.
  inversion G as [e' _ GS]; subst. clear G. revert d y F H. induction IH as [|x l Hx Hl IHl]; intros d y F H; cbn [add_data] in H; [inversion H; auto|].
  assert (GS' : forall c, In (DAddElement c) l -> elem_all (fun _ l => textual l) c) by (intros c C; apply GS; right; exact C).
  specialize (IHl GS').
  destruct x as [s|k|s|k|c]; cbn in Hx;
    try (apply sbind_ok in H; destruct H as (d2 & z & H & E); inversion E; subst; eapply IHl; eassumption).
  assert (GC : elem_all (fun _ l => textual l) c) by (apply GS; left; reflexivity).
  apply sbind_ok in H. destruct H as (d2 & z & H1 & H). apply sbind_ok in H. destruct H as (d3 & ck & H2 & H).
  apply sbind_ok in H. destruct H as (d4 & u & H3 & H). apply sbind_ok in H. destruct H as (d5 & w & H4 & H). inversion H; subst.
  destruct (Hx GC _ _ _ F H1) as (A1 & B1).
  assert (F2 : full_ok d2). { eapply full_prims; [|exact F]. pose proof (add_children_prims normal fuel c GC d) as Q. rewrite H1 in Q. exact Q. }
  assert (TC : textual (e_attribs (fst z))) by (eapply (shape_guard (fun _ l => textual l)); [exact H1|inversion GC; assumption]).
  destruct (store_add_active _ _ _ _ _ F2 TC H2) as (A2 & B2).
  assert (F3 : full_ok d3). { eapply full_prims; [|exact F2]. pose proof (store_add_prims normal d2 (fst z) None TC) as Q. rewrite H2 in Q. exact Q. }
  pose proof (link_children_meta fuel (opt_list (snd z)) d3 ck) as [_ B3 A3 _]. rewrite H3 in A3, B3. cbn [fst] in *.
  assert (F4 : full_ok d4). { eapply full_prims; [|exact F3]. pose proof (link_children_p0 normal fuel (opt_list (snd z)) d3 ck) as Q. rewrite H3 in Q. apply lift, Q. }
  destruct (IHl _ _ F4 H4) as (A4 & B4). split; congruence.
Qed.

(* all ways of adding, in the resulting document *)
Lemma refs_has_set p n dk : en_dec n = Some dk -> forall t d k q, e_has_attrib (mkElem t (p ++ refs n) d k q) AB_SET = true.
Proof.
  intros E t d k q. rewrite has_attrib_app. apply orb_true_iff. right. unfold refs. rewrite E. reflexivity.
Qed.
Lemma added_spec fuel d e ctx d1 k : full_ok d -> elem_all (fun _ l => textual l) e -> fresh_id d e -> added fuel d e ctx d1 k ->
  exists dA l n e1, full_ok dA /\ doc_le d dA /\ doc_active dA = doc_active d /\ doc_procs dA = doc_procs d /\ doc_le dA d1 /\
    get_elementdata d1 k = Some e1 /\ e_type e1 = e_type e /\ e_key e1 = Some k /\
    (~ bare_layer e \/ e_encodable e = true -> e_attribs e1 = filter (fun a => negb (a_encodable a)) (e_attribs e) ++ refs n) /\
    refs_ok d1 (e_type e) n /\ enc_case dA (e_with_data e l) ctx d1 n /\ doc_active d1 = doc_active d /\ doc_procs d1 = doc_procs d.
Proof.
  intros F T FR A.
  assert (Hd : forall t s x f, g_decl normal (d_new t s x f)) by (intros; repeat split).
  assert (S : exists dA l d2, full_ok dA /\ doc_le d dA /\ doc_active dA = doc_active d /\ doc_procs dA = doc_procs d /\ new_id dA (e_with_data e l) /\
     store_add dA (e_with_data e l) ctx = (d2, Ok k) /\ same_meta d2 d1 /\ doc_le d2 d1).
  { destruct A as [ctx d1 k H|d1 k H|p d1 k H].
    - exists d, (e_data e), d1. replace (e_with_data e (e_data e)) with e by (destruct e; reflexivity).
      repeat (split; [first [assumption|apply doc_le_refl|reflexivity|intros id I; apply (FR id I)]|]). split; [apply same_meta_refl|apply doc_le_refl].
    - unfold add_element in H. apply sbind_ok in H. destruct H as (dA & x & HA & H).
      destruct (add_children_shape _ _ _ _ _ HA) as (l & SH). rewrite SH in H.
      pose proof (add_children_prims normal fuel e T d) as PA. rewrite HA in PA. cbn [fst] in PA.
      destruct (add_children_active fuel e T _ _ _ F HA) as (AA & AP).
      exists dA, l, d1. split; [eapply full_prims; eassumption|]. split; [eapply (prims_le normal); eassumption|]. split; [exact AA|]. split; [exact AP|].
      split; [|split; [exact H|split; [apply same_meta_refl|apply doc_le_refl]]].
      intros id I. destruct (FR id) as (F1 & F2); [destruct e; exact I|]. rewrite (add_children_index _ _ _ _ _ HA id F2). exact F1.
    - unfold add_element_to in H. apply sbind_ok in H. destruct H as (dA & x & HA & H).
      apply sbind_ok in H. destruct H as (d2 & child & HS & H). apply map_err_ok in HS.
      destruct (add_children_shape _ _ _ _ _ HA) as (l & SH). rewrite SH in HS.
      apply sbind_ok in H. destruct H as (d3 & u & H3 & H). apply sbind_ok in H. destruct H as (d4 & u' & H4 & H).
      apply sbind_ok in H. destruct H as (d5 & u'' & H5 & H). inversion H; subst.
      pose proof (add_children_prims normal fuel e T d) as PA. rewrite HA in PA. cbn [fst] in PA.
      destruct (add_children_active fuel e T _ _ _ F HA) as (AA & AP).
      exists dA, l, d2. split; [eapply full_prims; eassumption|]. split; [eapply (prims_le normal); eassumption|]. split; [exact AA|]. split; [exact AP|].
      split; [|split; [exact HS|split]].
      + intros id I. destruct (FR id) as (F1 & F2); [destruct e; exact I|]. rewrite (add_children_index _ _ _ _ _ HA id F2). exact F1.
      + pose proof (link_children_meta fuel (opt_list (snd x)) d2 k) as L3. rewrite H3 in L3.
        pose proof (attach_meta d3 p k) as L4. rewrite H4 in L4.
        pose proof (post_add_meta fuel d4 k None) as L5. rewrite H5 in L5. cbn [fst] in *.
        eapply same_meta_trans; [exact L3|]. eapply same_meta_trans; [exact L4|exact L5].
      + pose proof (link_children_p0 normal fuel (opt_list (snd x)) d2 k) as L3. rewrite H3 in L3.
        pose proof (attach_p0 normal d3 p k) as L4. rewrite H4 in L4.
        pose proof (post_add_p0 normal fuel d4 k None) as L5. rewrite H5 in L5. cbn [fst] in *.
        eapply (prims_le normal); [exact Hd|]. apply lift. eapply rtc_trans; [exact L3|]. eapply rtc_trans; [exact L4|exact L5]. }
  destruct S as (dA & l & d2 & FA & LA & AA & AP & NI & HS & SM & L2).
  assert (TE : textual (e_attribs (e_with_data e l))) by (inversion T; assumption).
  destruct (store_add_spec _ _ _ _ _ FA TE NI HS) as (n & G & R & EC & A2 & P2).
  destruct (doc_le_elem _ _ _ _ L2 G) as (e1 & G1 & [K1 K2 K3]).
  exists dA, l, n, e1. split; [exact FA|]. split; [exact LA|]. split; [exact AA|]. split; [exact AP|]. split.
  { eapply doc_le_trans; [|exact L2]. eapply (prims_le normal); [exact Hd|]. pose proof (store_add_prims normal dA (e_with_data e l) ctx TE) as Q. rewrite HS in Q. exact Q. }
  split; [exact G1|]. split; [exact K1|]. split; [exact K2|]. cbn [e_attribs] in K3.
  destruct SM as [M1 M2 M3 M4]. split; [|split; [eapply refs_ok_stores; eassumption|split; [eapply enc_case_decls; eassumption|split; congruence]]].
  intros NB. destruct K3 as [K3|((RL & _) & NS)]; [exact K3|]. exfalso. rewrite K1 in RL. cbn in RL.
  destruct (layer_annotationtype _ RL) as (a & AT).
  destruct EC as [EN _ Hn|t dk dec EN AT' DS _ _ _ _|pk parent t dk dec EN FT _ _ _ _ _ _ _|EN AT' _ _ _ _ _ _ _].
  - subst n. destruct NB as [NB|NB]; [|change (e_encodable (e_with_data e l)) with (e_encodable e) in EN; congruence].
    apply NB. split; [exact RL|]. apply not_true_is_false. intros HS'. unfold e_has_attrib in *. apply existsb_exists in HS'. destruct HS' as (x & I & X).
    cbn [e_attribs] in NS. cbn in NS. rewrite app_nil_r in NS.
    assert (Q : existsb (fun a => ab_eqb (attribtype a) AB_SET) (filter (fun a => negb (a_encodable a)) (e_attribs e)) = true).
    { apply existsb_exists. exists x. split; [|exact X]. apply filter_In. split; [exact I|]. apply negb_true_iff.
      change (e_encodable (e_with_data e l)) with (e_encodable e) in EN. unfold e_encodable in EN.
      destruct (a_encodable x) eqn:AX; [|reflexivity]. assert (existsb a_encodable (e_attribs e) = true) by (apply existsb_exists; eauto). congruence. }
    congruence.
  - rewrite (refs_has_set _ _ _ (ds_dec _ _ _ _ _ _ _ DS)) in NS. discriminate.
  - cbn in FT. rewrite FT in AT. discriminate.
  - cbn in AT'. congruence.
Qed.
