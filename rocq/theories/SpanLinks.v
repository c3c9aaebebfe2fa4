(* The links between words and span annotations are kept by everything that adds elements (LIBRARY: no definition here
   models code). *)
From Coq Require Import String List Bool Arith NArith Lia.
From Verif Require Import Base Types SpecTable Attrib Element Store Metadata Document Select DocOps Xml Parser.
From Verif Require Import BaseFacts TypesFacts StoreFacts History Spec FrameFacts DocFacts StoreThms InvFacts EncodeFacts LinkFacts TreeFacts ForestFacts SelSpec SelectFacts NoPanic SpanFacts SpanSpec.
Import ListNotations.

Lemma idref_last e : idref e = attribs_last_idref (e_attribs e) None.
Proof.
  unfold idref. enough (X : forall l acc, attribs_last_idref l acc = last (map Some (flat_map (fun a => match a with A_Idref s => [s] | _ => [] end) l)) acc) by (symmetry; apply X).
  induction l as [|a l IH]; intros acc; [reflexivity|]. destruct a; cbn [attribs_last_idref flat_map app]; try apply IH. rewrite IH. cbn [map].
  generalize (flat_map (fun a => match a with A_Idref s0 => [s0] | _ => [] end) l). intros m. destruct m as [|x m]; [reflexivity|]. cbn [map]. revert x. induction m as [|y m IHm]; intros x; [reflexivity|]. exact (IHm y).
Qed.

Lemma NoDup_app_make {A} (a b : list A) : NoDup a -> NoDup b -> (forall x, In x a -> ~ In x b) -> NoDup (a ++ b).
Proof. intros NA NB D. induction NA as [|x a NX NA IH]; [exact NB|]. cbn [app]. constructor; [rewrite in_app_iff; intros [Q|Q]; [auto|exact (D x (or_introl eq_refl) Q)]|]. apply IH. intros y Y. apply D. right. exact Y. Qed.

(* the parent, where an open element has the next open element as its parent *)
Fixpoint nxt (st : list nat) (k : nat) : option nat :=
  match st with
  | a :: r => match r with b :: _ => if Nat.eqb k a then Some b else nxt r k | [] => None end
  | [] => None
  end.
Definition vpar (d : document) (st : list nat) (k : nat) : option nat := match nxt st k with Some p => Some p | None => parent_of d k end.
Inductive near (d : document) (st : list nat) : nat -> nat -> Prop :=
  | near_here x s : vpar d st x = Some s -> is_span d s true -> near d st x s
  | near_up x p s : vpar d st x = Some p -> is_span d p false -> near d st p s -> near d st x s.
Lemma nxt_out st k : ~ In k st -> nxt st k = None.
Proof.
  induction st as [|a st IH]; intros N; [reflexivity|]. cbn [nxt]. destruct st as [|b st]; [reflexivity|]. destruct (Nat.eqb_spec k a) as [->|]; [destruct N; left; reflexivity|]. apply IH. intros I. apply N. right. exact I.
Qed.

(* what is known of an element as far as links are concerned *)
Record ext (d d' : document) : Prop := {
  xt_old : forall k e, get_elementdata d k = Some e -> exists e', get_elementdata d' k = Some e' /\ e_type e' = e_type e /\ span_refs e' = span_refs e /\ e_key e' = e_key e /\ (e_type e = ET_WordReference -> idref e' = idref e);
  xt_new : forall k e', get_elementdata d k = None -> get_elementdata d' k = Some e' -> span_refs e' = [] /\ e_key e' = Some k;
  xt_ids : forall id k, get_element_key_by_id d id = Some k -> get_element_key_by_id d' id = Some k;
  xt_par : forall k p, parent_of d k = Some p -> parent_of d' k = Some p }.
Lemma ext_refl d : ext d d.
Proof. split; auto; [intros k e G; exists e; auto|intros; congruence]. Qed.
Lemma ext_same d d' : doc_elements d' = doc_elements d -> ext d d'.
Proof. intros E. split; unfold parent_of, get_elementdata, get_element_key_by_id; rewrite E; auto; [intros k e G; exists e; auto|intros; congruence]. Qed.
Definition link : Type := (nat * (nat * nat))%type.
(* [tied d st X done]: done lists the word references with their span annotation and the element referred to; X are
   exceptions that only occur within an operation *)
Record tied (d : document) (st : list nat) (X : list nat) (done : list link) : Prop := {
  td_key : forall k e, get_elementdata d k = Some e -> e_key e = Some k;
  td_nodup : NoDup (map fst done);
  td_each : forall w s k, In (w, (s, k)) done -> refers d w k /\ get_elementdata d k <> None /\ near d st w s;
  td_att : forall w s k, In (w, (s, k)) done -> parent_of d w <> None \/ In w X;
  td_refs : forall k e, get_elementdata d k = Some e -> span_refs e = map (fun x => fst (snd x)) (filter (fun x => Nat.eqb (snd (snd x)) k) done);
  td_all : forall w e, get_elementdata d w = Some e -> e_type e = ET_WordReference -> parent_of d w <> None -> In w (map fst done) \/ In w X }.

Lemma span_ext d d' k b : ext d d' -> is_span d k b -> is_span d' k b.
Proof. intros E (e & G & B). destruct (xt_old _ _ E _ _ G) as (e' & G' & T & _). exists e'. rewrite T. auto. Qed.
Lemma near_ext d d' st st' : ext d d' -> (forall k p, vpar d st k = Some p -> vpar d' st' k = Some p) -> forall w s, near d st w s -> near d' st' w s.
Proof. intros E V w s N. induction N as [x s P B|x p s P B N IH]; [apply near_here|eapply near_up]; eauto using span_ext. Qed.
Lemma refers_ext d d' w k : ext d d' -> refers d w k -> refers d' w k.
Proof. intros E (e & id & G & T & I & K). destruct (xt_old _ _ E _ _ G) as (e' & G' & T' & _ & _ & I'). exists e', id. split; [exact G'|]. split; [congruence|]. split; [rewrite I'; assumption|apply (xt_ids _ _ E), K]. Qed.
Lemma parent_get d k : parent_of d k <> None -> exists e, get_elementdata d k = Some e.
Proof. unfold parent_of. destruct (get_elementdata d k) as [e|]; [eauto|]. intros H. destruct H. reflexivity. Qed.
Lemma tied_ext d d' st st' X X' done : ext d d' -> (forall k p, vpar d st k = Some p -> vpar d' st' k = Some p) -> (forall w, In w X -> In w X') ->
  (forall w e', get_elementdata d' w = Some e' -> e_type e' = ET_WordReference -> parent_of d' w <> None -> parent_of d w <> None \/ In w X') ->
  tied d st X done -> tied d' st' X' done.
Proof.
  intros E V XX NP [TK TN TE TT TR TA]. split.
  - intros k e' G'. destruct (get_elementdata d k) as [e|] eqn:G; [|apply (xt_new _ _ E _ _ G G')]. destruct (xt_old _ _ E _ _ G) as (e1 & G1 & _ & _ & K & _). rewrite G' in G1. injection G1 as <-. rewrite K. apply TK, G.
  - exact TN.
  - intros w s k I. destruct (TE _ _ _ I) as (R & GK & N). split; [eapply refers_ext; eassumption|]. split; [|eapply near_ext; eassumption].
    destruct (get_elementdata d k) as [e|] eqn:G; [|congruence]. destruct (xt_old _ _ E _ _ G) as (e1 & G1 & _). congruence.
  - intros w s k I. destruct (TT _ _ _ I) as [P|P]; [left|auto]. destruct (parent_of d w) as [p|] eqn:PW; [|congruence]. rewrite (xt_par _ _ E _ _ PW). discriminate.
  - intros k e' G'. destruct (get_elementdata d k) as [e|] eqn:G.
    + destruct (xt_old _ _ E _ _ G) as (e1 & G1 & _ & S & _). rewrite G' in G1. injection G1 as <-. rewrite S. apply TR, G.
    + rewrite (proj1 (xt_new _ _ E _ _ G G')). symmetry. replace (filter _ done) with (@nil link); [reflexivity|]. symmetry. clear - TE G. induction done as [|[w [s j]] l IH]; [reflexivity|]. cbn [filter fst snd].
      destruct (Nat.eqb_spec j k) as [->|]; [|apply IH; intros; eapply TE; right; eassumption]. destruct (TE w s k (or_introl eq_refl)) as (_ & Q & _). congruence.
  - intros w e' G' T' P'. destruct (NP _ _ G' T' P') as [P|P]; [|auto]. destruct (parent_get _ _ P) as (e & G). destruct (xt_old _ _ E _ _ G) as (e1 & G1 & T & _). rewrite G' in G1. injection G1 as <-.
    destruct (TA w e G) as [Q|Q]; [congruence|exact P|auto|auto].
Qed.
Lemma vpar_ext d d' st k p : ext d d' -> vpar d st k = Some p -> vpar d' st k = Some p.
Proof. unfold vpar. intros E. destruct (nxt st k); [auto|apply (xt_par _ _ E)]. Qed.
Lemma tied_drop d st key done : tied d st [key] done -> (forall e, get_elementdata d key = Some e -> e_type e <> ET_WordReference) -> tied d st [] done.
Proof.
  intros [TK TN TE TT TR TA] N. split; auto.
  - intros w s k I. destruct (TT _ _ _ I) as [P|[<-|[]]]; [auto|]. exfalso. destruct (TE _ _ _ I) as ((e & id & G & T & _) & _). exact (N _ G T).
  - intros w e G T P. destruct (TA _ _ G T P) as [Q|[<-|[]]]; [auto|]. exfalso. exact (N _ G T).
Qed.
Lemma tied_close d st key done : tied d st [key] done -> In key (map fst done) -> parent_of d key <> None -> tied d st [] done.
Proof.
  intros [TK TN TE TT TR TA] I0 P0. split; auto.
  - intros w s k I. destruct (TT _ _ _ I) as [P|[<-|[]]]; auto.
  - intros w e G T P. destruct (TA _ _ G T P) as [Q|[<-|[]]]; auto.
Qed.

(* ---------------------------------------------------------------- changes to one element *)
Lemma parent_upd d k f j : parent_of (upd_element d k f) j = if Nat.eqb j k then obind (get_elementdata d k) (fun e => e_parent (f e)) else parent_of d j.
Proof. unfold parent_of. rewrite get_upd_element. destruct (Nat.eqb_spec j k) as [->|]; [|reflexivity]. destruct (get_elementdata d k); reflexivity. Qed.
Lemma key_upd d k f id : get_element_key_by_id (upd_element d k f) id = get_element_key_by_id d id.
Proof. unfold get_element_key_by_id, st_id_to_key. rewrite upd_index. reflexivity. Qed.
Lemma ext_upd d k f : (forall e, get_elementdata d k = Some e -> e_type (f e) = e_type e /\ span_refs (f e) = span_refs e /\ e_key (f e) = e_key e /\ (e_type e = ET_WordReference -> idref (f e) = idref e) /\ forall p, e_parent e = Some p -> e_parent (f e) = Some p) -> ext d (upd_element d k f).
Proof.
  intros H. split.
  - intros j e G. rewrite get_upd_element. destruct (Nat.eqb_spec j k) as [->|]; [|exists e; auto]. rewrite G. exists (f e). destruct (H e G) as (A & B & C & D & _). auto.
  - intros j e' G. rewrite get_upd_element. destruct (Nat.eqb_spec j k) as [->|]; [rewrite G; discriminate|congruence].
  - intros id j. rewrite key_upd. auto.
  - intros j p P. rewrite parent_upd. destruct (Nat.eqb_spec j k) as [->|]; [|exact P]. unfold parent_of in P. destruct (get_elementdata d k) as [e|] eqn:G; [|discriminate]. cbn in *. destruct (H e eq_refl) as (_ & _ & _ & _ & Q). apply Q, P.
Qed.
Lemma span_refs_app e l : flat_map (fun x => match x with DSpanReference s => [s] | _ => [] end) (e_data e ++ l) = span_refs e ++ flat_map (fun x => match x with DSpanReference s => [s] | _ => [] end) l.
Proof. unfold span_refs. rewrite flat_map_app. reflexivity. Qed.
Lemma ext_push d k x : (forall s, x <> DSpanReference s) -> ext d (upd_element d k (fun e => e_push e x)).
Proof.
  intros N. apply ext_upd. intros e _. split; [reflexivity|]. split; [|auto]. unfold span_refs at 1. cbn [e_data e_push e_with_data]. rewrite span_refs_app. destruct x; try apply app_nil_r. destruct (N k0). reflexivity.
Qed.
Lemma tied_push d st X done k x : (forall s, x <> DSpanReference s) -> tied d st X done -> tied (upd_element d k (fun e => e_push e x)) st X done.
Proof.
  intros N. pose proof (ext_push d k x N) as E. apply tied_ext; [exact E|intros j p; apply vpar_ext, E|auto|]. intros w e' _ _ P. left. rewrite parent_upd in P. destruct (Nat.eqb_spec w k) as [->|]; [|exact P]. unfold parent_of. destruct (get_elementdata d k) as [e|]; exact P.
Qed.
(* an element without parent gets one *)
Lemma tied_parent d st X done key p : parent_of d key = None -> tied d st X done -> tied (upd_element d key (e_set_parent (Some p))) st (key :: X) done.
Proof.
  intros N. assert (E : ext d (upd_element d key (e_set_parent (Some p)))).
  { apply ext_upd. intros e G. split; [reflexivity|]. split; [reflexivity|]. split; [reflexivity|]. split; [reflexivity|]. intros q Q. unfold parent_of in N. rewrite G in N. cbn in N. congruence. }
  apply tied_ext; [exact E|intros j q; apply vpar_ext, E|intros w I; right; exact I|]. intros w e' _ _ P. rewrite parent_upd in P. destruct (Nat.eqb_spec w key) as [->|]; [right; left; reflexivity|left; exact P].
Qed.
Lemma tied_attach d st X done p c d' : p <> c -> parent_of d c = None -> attach_element d p c = (d', Ok tt) -> tied d st X done -> tied d' st (c :: X) done /\ parent_of d' c = Some p /\ ext d d' /\ (forall j, j <> c -> parent_of d' j = parent_of d j).
Proof.
  intros NE PC. unfold attach_element. destruct (get_elementdata d p) as [pe|] eqn:GP; [|discriminate]. destruct (get_elementdata d c) as [ce|] eqn:GC; [|discriminate]. unfold parent_of in PC. rewrite GC in PC. cbn in PC. rewrite PC.
  intros H T. injection H as <-. assert (PC' : parent_of d c = None) by (unfold parent_of; rewrite GC; exact PC).
  assert (T' : tied (upd_element (upd_element d c (e_set_parent (Some p))) p (fun e => e_push e (DElement c))) st (c :: X) done) by (apply tied_push; [discriminate|apply tied_parent; assumption]).
  split; [exact T'|]. split; [rewrite !parent_upd, get_upd_element; destruct (Nat.eqb_spec c p); [congruence|]; rewrite Nat.eqb_refl, GC; reflexivity|]. split.
  - split.
    + intros k e G. rewrite !get_upd_element. destruct (Nat.eqb_spec k p) as [->|NK].
      * destruct (Nat.eqb_spec p c); [contradiction|]. rewrite GP. rewrite GP in G. injection G as ->. cbn [option_map]. eexists. split; [reflexivity|]. split; [reflexivity|]. split; [|auto]. unfold span_refs at 1. cbn [e_data e_push e_with_data]. rewrite span_refs_app. apply app_nil_r.
      * destruct (Nat.eqb_spec k c) as [->|]; [rewrite GC; rewrite GC in G; injection G as ->; cbn [option_map]; eexists; split; [reflexivity|]; auto|]. exists e. auto.
    + intros k e' G. rewrite !get_upd_element. destruct (Nat.eqb_spec k p) as [->|]; [congruence|]. destruct (Nat.eqb_spec k c) as [->|]; [congruence|]. congruence.
    + intros id k. rewrite !key_upd. auto.
    + intros k q Q. rewrite !parent_upd, get_upd_element. destruct (Nat.eqb_spec k p) as [->|]; [destruct (Nat.eqb_spec p c); [contradiction|]; unfold parent_of in Q; rewrite GP in *; exact Q|]. destruct (Nat.eqb_spec k c) as [->|]; [congruence|exact Q].
  - intros j NJ. rewrite !parent_upd, get_upd_element. destruct (Nat.eqb_spec j p) as [->|]; [destruct (Nat.eqb_spec p c); [contradiction|]; unfold parent_of; rewrite GP; reflexivity|]. destruct (Nat.eqb_spec j c); [contradiction|reflexivity].
Qed.

(* ---------------------------------------------------------------- storing an element *)
Lemma ext_store d e ctx : span_refs e = [] -> ext d (fst (store_add d e ctx)) /\ (e_parent e = None -> forall k, parent_of (fst (store_add d e ctx)) k = parent_of d k).
Proof.
  intros NS. pose proof (store_add_cases d e ctx) as C. pose proof (encode_elements d e ctx) as EE. pose proof (encode_value d e ctx) as EV. revert C.
  generalize (fst (store_add d e ctx)) (snd (store_add d e ctx)). intros d2 r C.
  destruct C as [d1 e1 id k E I J|d1 e1 s E N' B IT IX|d1 e1 E N' B|d1 r E NR]; rewrite E in EE; cbn [fst] in EE; try (split; [apply ext_same, EE|intros _ j; unfold parent_of, get_elementdata; rewrite EE; reflexivity]).
  destruct (EV _ _ E) as (V1 & V2 & V3 & V4 & V5). assert (GN : forall j, get_elementdata (doc_with_elements d1 s) j = if Nat.eqb j (st_len (doc_elements d)) then Some (e_assign_key (st_len (doc_elements d)) e1) else get_elementdata d j).
  { intros j. unfold get_elementdata. docs_g. rewrite (st_get_snoc _ _ _ _ IT). reflexivity. }
  assert (NN : get_elementdata d (st_len (doc_elements d)) = None).
  { destruct (get_elementdata d (st_len (doc_elements d))) as [x|] eqn:G; [|reflexivity]. unfold get_elementdata in G. apply st_get_lt in G. lia. }
  split.
  - split.
    + intros k x G. rewrite GN. destruct (Nat.eqb_spec k (st_len (doc_elements d))) as [->|]; [congruence|]. exists x. auto.
    + intros k x G. rewrite GN. destruct (Nat.eqb_spec k (st_len (doc_elements d))) as [->|]; [|congruence]. intros H. injection H as <-. destruct e1 as [ty a l key par]. cbn in *. subst l. split; [exact NS|reflexivity].
    + intros id k. unfold get_element_key_by_id, st_id_to_key. docs_g. rewrite IX. destruct (e_id e) as [i|]; [|auto]. rewrite smap_get_insert. destruct (String.eqb_spec id i) as [->|]; [|auto]. intros H. specialize (N' _ eq_refl). unfold get_element_key_by_id, st_id_to_key in N'. congruence.
    + intros k p P. unfold parent_of in *. rewrite GN. destruct (Nat.eqb_spec k (st_len (doc_elements d))) as [->|]; [rewrite NN in P; discriminate|exact P].
  - intros EP k. unfold parent_of. rewrite GN. destruct (Nat.eqb_spec k (st_len (doc_elements d))) as [->|]; [|reflexivity]. rewrite NN. cbn. destruct e1 as [ty a l key par]. cbn in *. congruence.
Qed.
Lemma tied_store d st X done e ctx : span_refs e = [] -> e_parent e = None -> tied d st X done -> tied (fst (store_add d e ctx)) st X done.
Proof.
  intros NS EP. destruct (ext_store d e ctx NS) as (E & P). apply tied_ext; [exact E|intros k p; apply vpar_ext, E|auto|]. intros w e' _ _. rewrite (P EP). auto.
Qed.

(* ---------------------------------------------------------------- word references *)
Lemma matches_is_span d k b : matches span_selector d (DElement k) = Ok b -> get_elementdata d k <> None -> is_span d k b.
Proof.
  intros M N. destruct (get_elementdata d k) as [e|] eqn:G; [|congruence]. exists e. split; [exact G|].
  cbn -[group_contains] in M. rewrite G in M. destruct (group_contains EG_Span (e_type e)); cbn in M; congruence.
Qed.
Lemma anc_near d fuel : forall k a, anc_next fuel d span_selector k = Ok (Some a) -> near d [] k a.
Proof.
  induction fuel as [|fuel IH]; intros k a; cbn [anc_next]; [discriminate|]. destruct (get_elementdata d k) as [e|] eqn:G; [|discriminate]. destruct (e_parent e) as [p|] eqn:P; [|discriminate].
  assert (V : vpar d [] k = Some p) by (unfold vpar, parent_of; cbn; rewrite G; exact P).
  destruct (matches span_selector d (DElement p)) as [[|]| | |] eqn:M; try discriminate; destruct (get_elementdata d p) as [pe|] eqn:GP; try discriminate.
  - intros H. injection H as <-. apply near_here; [exact V|]. apply matches_is_span; [exact M|congruence].
  - intros H. eapply near_up; [exact V|apply matches_is_span; [exact M|congruence]|apply IH, H].
Qed.
Lemma nxt_here st : forall key top, NoDup (key :: st) -> hd_error st = Some top -> nxt (key :: st) key = Some top.
Proof. intros key top N H. destruct st as [|b st]; [discriminate|]. injection H as ->. cbn [nxt]. rewrite Nat.eqb_refl. reflexivity. Qed.
(* the elements still open above x are looked through from the innermost on *)
Lemma first_near d full : forall st x, (forall pre a r, st = pre ++ a :: r -> vpar d full a = hd_error r \/ r = []) -> vpar d full x = hd_error st -> (forall k, In k st -> get_elementdata d k <> None) ->
  forall s, first_match d span_selector st = Ok (Some s) -> near d full x s.
Proof.
  induction st as [|a st IH]; intros x VP VX GK s H; cbn [first_match] in H; [discriminate|]. apply rbind_ok in H. destruct H as (m & M & H). cbn [hd_error] in VX.
  assert (GA : get_elementdata d a <> None) by (apply GK; left; reflexivity). pose proof (matches_is_span _ _ _ M GA) as SP. destruct m.
  - injection H as <-. apply near_here; assumption.
  - eapply near_up; [exact VX|exact SP|]. apply IH; [|destruct (VP [] a st eq_refl) as [Q|Q]; [exact Q|subst st; discriminate H]|intros k K; apply GK; right; exact K|exact H]. intros pre b r E. apply (VP (a :: pre)). rewrite E. reflexivity.
Qed.

Lemma tied_wref d st X done w s k : tied d st X done -> ~ In w (map fst done) -> refers d w k -> get_elementdata d k <> None -> near d st w s -> (parent_of d w <> None \/ In w X) ->
  tied (upd_element d k (fun e => e_push e (DSpanReference s))) st X (done ++ [(w, (s, k))]).
Proof.
  intros [TK TN TE TT TR TA] NW R GK N AT.
  assert (GU : forall j e', get_elementdata (upd_element d k (fun e => e_push e (DSpanReference s))) j = Some e' -> exists e, get_elementdata d j = Some e /\ e_type e' = e_type e /\ e_key e' = e_key e /\ idref e' = idref e /\ e_parent e' = e_parent e /\ span_refs e' = span_refs e ++ if Nat.eqb j k then [s] else []).
  { intros j e'. rewrite get_upd_element. destruct (Nat.eqb_spec j k) as [->|].
    - destruct (get_elementdata d k) as [e|]; [|discriminate]. cbn [option_map]. intros H. injection H as <-. exists e. repeat (split; [reflexivity|]). unfold span_refs at 1. cbn [e_data e_push e_with_data]. apply span_refs_app.
    - intros G. exists e'. repeat (split; [auto|]). rewrite app_nil_r. reflexivity. }
  assert (GD : forall j e, get_elementdata d j = Some e -> exists e', get_elementdata (upd_element d k (fun e => e_push e (DSpanReference s))) j = Some e' /\ e_type e' = e_type e /\ idref e' = idref e).
  { intros j e G. rewrite get_upd_element. destruct (Nat.eqb_spec j k) as [->|]; [rewrite G; eexists; split; [reflexivity|]; auto|exists e; auto]. }
  assert (PU : forall j, parent_of (upd_element d k (fun e => e_push e (DSpanReference s))) j = parent_of d j).
  { intros j. rewrite parent_upd. destruct (Nat.eqb_spec j k) as [->|]; [|reflexivity]. unfold parent_of. destruct (get_elementdata d k); reflexivity. }
  assert (SU : forall j b, is_span d j b -> is_span (upd_element d k (fun e => e_push e (DSpanReference s))) j b).
  { intros j b (e & G & B). destruct (GD _ _ G) as (e' & G' & T & _). exists e'. rewrite T. auto. }
  assert (NU : forall x y, near d st x y -> near (upd_element d k (fun e => e_push e (DSpanReference s))) st x y).
  { intros x y Q. induction Q as [x y P B|x p y P B Q IH]; [apply near_here|eapply near_up]; eauto; unfold vpar in *; rewrite PU; exact P. }
  assert (RU : forall x y, refers d x y -> refers (upd_element d k (fun e => e_push e (DSpanReference s))) x y).
  { intros x y (e & id & G & T & I' & K). destruct (GD _ _ G) as (e' & G' & T' & Q). exists e', id. rewrite key_upd. repeat split; congruence. }
  assert (HU : forall j, get_elementdata d j <> None -> get_elementdata (upd_element d k (fun e => e_push e (DSpanReference s))) j <> None).
  { intros j G. destruct (get_elementdata d j) as [e|] eqn:GJ; [|congruence]. destruct (GD _ _ GJ) as (e' & G' & _). congruence. }
  split.
  - intros j e' G'. destruct (GU _ _ G') as (e & G & _ & K & _). rewrite K. apply TK, G.
  - rewrite map_app. cbn [map fst]. apply NoDup_app_make; [exact TN|constructor; [intros []|constructor]|]. intros x I' [<-|[]]. exact (NW I').
  - intros x y z I'. apply in_app_iff in I'. destruct I' as [I'|[I'|[]]].
    + destruct (TE _ _ _ I') as (A & B & C). auto.
    + injection I' as <- <- <-. auto.
  - intros x y z I'. rewrite PU. apply in_app_iff in I'. destruct I' as [I'|[I'|[]]]; [eapply TT, I'|]. injection I' as <- <- <-. exact AT.
  - intros j e' G'. destruct (GU _ _ G') as (e & G & _ & _ & _ & _ & S). rewrite S, (TR _ _ G), filter_app, map_app. f_equal. cbn [filter snd fst]. rewrite (Nat.eqb_sym k j). destruct (Nat.eqb j k); reflexivity.
  - intros x e' G' T' P'. rewrite PU in P'. destruct (GU _ _ G') as (e & G & T & _). rewrite map_app, in_app_iff. destruct (TA x e G) as [Q|Q]; [congruence|exact P'|auto|auto].
Qed.

(* what post_add does *)
Lemma post_add_cases fuel d key stk d' e : post_add fuel d key stk = (d', Ok tt) -> get_elementdata d key = Some e ->
  (e_type e <> ET_WordReference /\ ext d d' /\ forall j, parent_of d' j = parent_of d j) \/
  (e_type e = ET_WordReference /\ exists s k, refers d key k /\ get_elementdata d k <> None /\ d' = upd_element d k (fun x => e_push x (DSpanReference s)) /\
     match stk with Some st => first_match d span_selector (rev st) = Ok (Some s) | None => exists a x, anc_next fuel d span_selector key = Ok (Some a) /\ get_elementdata d a = Some x /\ e_key x = Some s end).
Proof.
  intros H G. unfold post_add in H. rewrite G in H.
  assert (LY : (if group_contains EG_Layer (e_type e) && negb (e_has_attrib e AB_SET)
             then let! d0, dk := (d, layer_declaration fuel d e) in
                  match dk with
                  | Some dk0 => (upd_element d0 key (fun x => e_with_attribs x [A_DeclarationRef dk0]), Ok tt)
                  | None => (d0, Ok tt)
                  end
             else (d, Ok tt)) = (d', Ok tt) -> e_type e <> ET_WordReference -> ext d d' /\ forall j, parent_of d' j = parent_of d j).
  { destruct (group_contains EG_Layer (e_type e) && negb (e_has_attrib e AB_SET)); intros L N; [|injection L as <-; split; [apply ext_refl|reflexivity]]. apply sbind_ok in L. destruct L as (d0 & dk & E0 & L). injection E0 as <- _. destruct dk as [dk|]; [|injection L as <-; split; [apply ext_refl|reflexivity]].
    injection L as <-. split.
    - apply ext_upd. intros x GX. rewrite G in GX. injection GX as <-. repeat (split; [reflexivity|]). split; [intros W; contradiction|auto].
    - intros j. rewrite parent_upd. destruct (Nat.eqb_spec j key) as [->|]; [|reflexivity]. unfold parent_of. rewrite G. reflexivity. }
  destruct (et_eqb (e_type e) ET_WordReference) eqn:W.
  - right. assert (TW : e_type e = ET_WordReference) by (destruct (e_type e); try discriminate W; reflexivity). split; [exact TW|]. rewrite TW in H. unfold post_add_wref in H.
    destruct (attribs_last_idref (e_attribs e) None) as [id|] eqn:ID; [|discriminate]. apply sbind_ok in H. destruct H as (d1 & sp & A & H). injection A as <- A. destruct sp as [sk|]; [|discriminate].
    apply sbind_ok in H. destruct H as (d1 & tg & B & H). injection B as <- B. destruct tg as [tk|]; [|discriminate]. injection H as <-. exists sk, tk. unfold key_by_id in B. destruct (get_element_key_by_id d id) as [k0|] eqn:KB; [|discriminate].
    destruct (get_elementdata d k0) eqn:GK; [|discriminate]. injection B as ->. split; [exists e, id; rewrite idref_last; auto|]. split; [congruence|]. split; [reflexivity|].
    destruct stk as [st|]; [exact A|]. apply rbind_ok in A. destruct A as ([a|] & A & B); [|discriminate]. apply rbind_ok in B. destruct B as (b & B & C). injection C as ->. unfold key_of in B. destruct (get_elementdata d a) as [x|] eqn:GX; [|discriminate].
    exists a, x. split; [exact A|]. split; [exact GX|]. destruct (e_key x); cbn in B; congruence.
  - left. assert (TW : e_type e <> ET_WordReference) by (intros E; rewrite E in W; discriminate W). split; [exact TW|]. apply LY; [|exact TW]. destruct (e_type e); try exact H. congruence.
Qed.

(* ---------------------------------------------------------------- adding elements *)
Definition ties (d : document) : Prop := exists done, tied d [] [] done.
(* a new child: its parent is set, then it is looked at *)
Lemma post_ties fuel d d' key e done : get_elementdata d key = Some e -> ~ In key (map fst done) -> parent_of d key <> None -> tied d [] [key] done -> post_add fuel d key None = (d', Ok tt) -> ties d'.
Proof.
  intros G NI P T H. destruct (post_add_cases _ _ _ _ _ _ H G) as [(NW & E & PE)|(W & s & k & R & GK & -> & a & x & A & GX & KX)].
  - exists done. eapply tied_drop with (key := key).
    + eapply tied_ext; [exact E|intros j p; apply vpar_ext, E|intros w I'; exact I'| |exact T]. intros w e' _ _. rewrite PE. auto.
    + intros e' G'. destruct (xt_old _ _ E _ _ G) as (e1 & G1 & T1 & _). rewrite G' in G1. injection G1 as <-. congruence.
  - rewrite (td_key _ _ _ _ T _ _ GX) in KX. injection KX as <-. exists (done ++ [(key, (a, k))]). eapply tied_close with (key := key).
    + apply tied_wref; auto. eapply anc_near, A.
    + rewrite map_app, in_app_iff. right. left. reflexivity.
    + rewrite parent_upd. destruct (Nat.eqb_spec key k) as [->|]; [|exact P]. unfold parent_of in P. destruct (get_elementdata d k); exact P.
Qed.
Lemma not_done d st done key : tied d st [] done -> parent_of d key = None -> ~ In key (map fst done).
Proof. intros T P I'. apply in_map_iff in I'. destruct I' as ([w [s k]] & E & I'). cbn in E. subst w. destruct (td_att _ _ _ _ T _ _ _ I') as [Q|[]]. congruence. Qed.
Lemma link_ties fuel q ks : forall d d', NoDup ks -> (forall k, In k ks -> get_elementdata d k <> None /\ parent_of d k = None) -> link_children fuel d q ks = (d', Ok tt) -> ties d -> ties d'.
Proof.
  induction ks as [|k ks IH]; intros d d' ND W H T; cbn [link_children] in H; [injection H as <-; exact T|]. cbv zeta in H. apply sbind_ok in H. destruct H as (d2 & u & P & H). destruct u.
  inversion ND as [|? ? NK NR]; subst. destruct (W k (or_introl eq_refl)) as (GK & PK). destruct T as (done & T). destruct (get_elementdata d k) as [e|] eqn:G; [|congruence].
  assert (G1 : get_elementdata (upd_element d k (e_set_parent (Some q))) k = Some (e_set_parent (Some q) e)) by (rewrite get_upd_element, Nat.eqb_refl, G; reflexivity).
  assert (T2 : ties d2).
  { eapply post_ties; [exact G1|exact (not_done _ _ _ _ T PK)| |apply tied_parent; [exact PK|exact T]|exact P]. unfold parent_of. rewrite G1. discriminate. }
  eapply IH; [exact NR| |exact H|exact T2]. intros j J. pose proof (post_add_sh fuel (upd_element d k (e_set_parent (Some q))) k None) as S. rewrite P in S. cbn [fst] in S. destruct S as (S & _ & _). specialize (S j).
  rewrite sh_upd in S. destruct (Nat.eqb_spec j k) as [->|]; [contradiction|]. destruct (W j (or_intror J)) as (GJ & PJ). split.
  - unfold sh in S. destruct (get_elementdata d2 j); [discriminate|]. destruct (get_elementdata d j); [discriminate|congruence].
  - rewrite <- sh_parent in *. unfold spar in *. rewrite S. exact PJ.
Qed.
Lemma no_span_refs l : filter (fun x => negb (is_spanref x)) l = l -> flat_map (fun x => match x with DSpanReference s => [s] | _ => [] end) l = @nil nat.
Proof.
  intros E. assert (N : forall s, ~ In (DSpanReference s) l). { intros s I'. rewrite <- E in I'. apply filter_In in I'. destruct I' as (_ & Q). discriminate Q. }
  clear E. induction l as [|x l IH]; [reflexivity|]. cbn [flat_map]. rewrite IH by (intros s I'; apply (N s); right; exact I'). destruct x; try reflexivity. destruct (N k). left. reflexivity.
Qed.
(* one element with its nested elements *)
Lemma one_ties fuel d c d1 l ks ctx d2 ck d3 : add_data fuel d (e_data c) = (d1, Ok (l, ks)) -> new_element c -> NoDup (ids_in c) -> (forall id, In id (ids_in c) -> ~ has_id d id) ->
  store_add d1 (e_with_data c l) ctx = (d2, Ok ck) -> link_children fuel d2 ck ks = (d3, Ok tt) -> ties d1 -> ties d3.
Proof.
  intros A NE ND NI SA LC T. destruct (all_adds_well c fuel d d1 l ks A NE ND NI) as [F1 L1 O1 P1 N1 W1 G1]. destruct (pre_content _ _ _ _ P1) as (C1 & C2).
  assert (KS : ks = child_keys l). { pose proof (add_data_keys _ _ _ _ _ A) as K. cbn in K. apply K. inversion NE; assumption. } subst ks.
  assert (EP : e_parent (e_with_data c l) = None) by (inversion NE; assumption). assert (NS : span_refs (e_with_data c l) = []) by (apply no_span_refs, C1).
  destruct T as (done & T). pose proof (tied_store d1 [] [] done _ ctx NS EP T) as T2. destruct (ext_store d1 (e_with_data c l) ctx NS) as (E2 & P2). specialize (P2 EP). rewrite SA in T2, E2, P2. cbn [fst] in T2, E2, P2.
  eapply link_ties; [exact N1| |exact LC|exists done; exact T2]. intros k K. destruct (W1 _ K) as (_ & X & Y). split.
  - unfold sh in X. destruct (get_elementdata d1 k) as [x|] eqn:G; [|exfalso; apply X; reflexivity]. destruct (xt_old _ _ E2 _ _ G) as (x' & G' & _). congruence.
  - rewrite P2, <- sh_parent. exact Y.
Qed.
Lemma data_ties fuel e : new_element e -> NoDup (ids_in e) -> forall d d1 l ks, add_data fuel d (e_data e) = (d1, Ok (l, ks)) -> (forall id, In id (ids_in e) -> ~ has_id d id) -> ties d -> ties d1.
Proof.
  induction e as [e IH] using elem_ind. intros NE ND d d1 l ks H NI T.
  assert (NIT : new_items (e_data e)) by (inversion NE; split; [|split]; assumption).
  assert (NDD : NoDup (ids_data (e_data e))). { rewrite ids_in_eq in ND. apply NoDup_app_inv in ND. tauto. }
  assert (NID : forall id, In id (ids_data (e_data e)) -> ~ has_id d id). { intros id I'. apply NI. rewrite ids_in_eq, in_app_iff. auto. }
  clear NE ND NI. revert d l ks H NDD NID T. induction (e_data e) as [|x r IHr]; intros d l ks H ND NI T.
  - cbn in H. injection H as <- _ _. exact T.
  - inversion IH as [|x' r' HX HR]; subst. destruct (new_items_cons _ _ NIT) as (NR & NX). specialize (IHr HR NR). destruct x; cbn [add_data] in H; try contradiction.
    + apply sbind_ok in H. destruct H as (d2 & [l' ks'] & A & H). injection H as <- _ _. exact (IHr _ _ _ A ND NI T).
    + apply sbind_ok in H. destruct H as (d2 & [l' ks'] & A & H). injection H as <- _ _. exact (IHr _ _ _ A ND NI T).
    + apply sbind_ok in H. destruct H as (dA & z & A & H). apply sbind_ok in H. destruct H as (dB & ck & B & H). apply sbind_ok in H. destruct H as (dC & u & C & H).
      apply sbind_ok in H. destruct H as (dD & w & D & H). injection H as <- _ _. destruct u. destruct w as [l' ks'].
      destruct (add_children_data _ _ _ _ _ A) as (lc & kc & A1 & A2 & A3). rewrite A2 in B. rewrite A3 in C. cbn [ids_data] in ND, NI.
      apply NoDup_app_inv in ND. destruct ND as (NDc & NDr & DIS). assert (NIc : forall id, In id (ids_in e0) -> ~ has_id d id) by (intros id I'; apply NI, in_app_iff; auto).
      destruct (add_one fuel d e0 dA lc kc None dB ck dC (all_adds_well e0) A1 NX NDc NIc B C) as (EK & LC & FC & OC & RC & PC & XC & GC).
      assert (TA : ties dA) by (exact (HX NX NDc _ _ _ _ A1 NIc T)). assert (TC : ties dC) by (exact (one_ties _ _ _ _ _ _ _ _ _ _ A1 NX NDc NIc B C TA)).
      eapply IHr; [exact D|exact NDr| |exact TC]. intros id I' HI. destruct (GC _ HI) as [Q|Q]; [apply (NI id); [apply in_app_iff; auto|exact Q]|]. apply (DIS _ Q I').
Qed.
Lemma add_to_ties fuel d p e d1 k : p < sh_len d -> fresh_for d e -> add_element_to fuel d p e = (d1, Ok k) -> ties d -> ties d1.
Proof.
  intros PL (NE & ND & NI) H T. unfold add_element_to in H. apply sbind_ok in H. destruct H as (dA & x & A & H).
  apply sbind_ok in H. destruct H as (dB & ck & B & H). apply sbind_ok in H. destruct H as (dC & u & C & H).
  apply sbind_ok in H. destruct H as (dD & v & D & H). apply sbind_ok in H. destruct H as (dE & w & E & H). injection H as <- ->. destruct u, v, w.
  destruct (add_children_data _ _ _ _ _ A) as (lc & kc & A1 & A2 & A3). rewrite A2 in B. rewrite A3 in C. apply map_err_ok in B.
  assert (NI' : forall id, In id (ids_in e) -> ~ has_id d id) by (intros id I'; apply not_has_id, NI, I').
  destruct (add_one fuel d e dA lc kc (Some p) dB k dC (all_adds_well e) A1 NE ND NI' B C) as (EK & LC & FC & OC & RC & PC & XC & GC).
  assert (KP : p <> k) by lia. rewrite sh_parent in PC. pose proof (data_ties fuel e NE ND _ _ _ _ A1 NI' T) as TA. destruct (one_ties _ _ _ _ _ _ _ _ _ _ A1 NE ND NI' B C TA) as (done & TC).
  destruct (tied_attach _ _ _ _ _ _ _ KP PC D TC) as (TD & PD & _ & _). destruct (parent_get dD k) as (x0 & GK); [congruence|].
  eapply post_ties; [exact GK|exact (not_done _ _ _ _ TC PC)|congruence|exact TD|exact E].
Qed.

(* ---------------------------------------------------------------- the other ways of adding *)
Lemma same_ties d d' : doc_elements d' = doc_elements d -> ties d -> ties d'.
Proof.
  intros EL (done & T). exists done. pose proof (ext_same _ _ EL) as E. apply (tied_ext d d' [] [] [] [] done); [exact E|intros j p; apply vpar_ext, E|intros w W; exact W| |exact T]. intros w e' _ _ P. left. unfold parent_of, get_elementdata in *. rewrite EL in P. exact P.
Qed.
Lemma store_ties d e ctx : fresh_for d e -> ties d -> ties (fst (store_add d e ctx)).
Proof.
  intros (NE & _) (done & T). exists done. inversion NE as [e' EP _ NS _]; subst. apply tied_store; [|exact EP|exact T]. unfold span_refs. clear - NS. induction (e_data e) as [|x l IH]; [reflexivity|]. cbn [flat_map]. rewrite IH by (intros k K; apply (NS k); right; exact K). destruct x; try reflexivity. destruct (NS k). left. reflexivity.
Qed.
Lemma checked_ties fuel d p e d1 k : fresh_for d e -> add_checked fuel d p e = (d1, Ok k) -> ties d -> ties d1.
Proof.
  intros FR H T. unfold add_checked in H. apply sbind_ok in H. destruct H as (d2 & u & C & H). inversion C; subst.
  eapply add_to_ties; [apply sh_exists; eapply check_exists; eassumption|exact FR|exact H|exact T].
Qed.
Lemma in_layer_ties fuel d lo ho t lt set e d1 k : fresh_for d e -> add_in_layer fuel d lo ho t lt set e = (d1, Ok k) -> ties d -> ties d1.
Proof.
  intros FR H T. unfold add_in_layer in H. apply sbind_ok in H. destruct H as (d2 & lk & E & H). injection E as <- E. clear E.
  apply sbind_ok in H. destruct H as (d3 & lk2 & E & H).
  assert (X : ties d3 /\ fresh_for d3 e).
  { destruct lk as [k0|]; [injection E as <- _; auto|]. destruct (fresh_for_layer lt set d) as (FL & IL).
    apply sbind_ok in E. destruct E as (d4 & u & C & E). injection C as <- C. apply check_exists in C. apply sh_exists in C.
    split; [eapply add_to_ties; eassumption|]. destruct (add_element_to_tree _ _ _ _ _ _ C FL E) as (_ & _ & _ & _ & _ & G & _).
    destruct FR as (A & B & D). split; [exact A|]. split; [exact B|]. intros id I'. apply not_has_id. intros Q. destruct (G _ Q) as [Q'|Q']; [|rewrite IL in Q'; destruct Q'].
    apply not_has_id in Q'; [exact Q'|apply D, I']. }
  destruct X as (T3 & FR3). exact (checked_ties fuel d3 lk2 e d1 k FR3 H T3).
Qed.
Lemma annotate_ties fuel d p e d1 k : fresh_for d e -> annotate fuel d p e = (d1, Ok k) -> ties d -> ties d1.
Proof.
  intros FR H T. unfold annotate in H. destruct (get_elementdata d p) as [pe|]; [|discriminate].
  destruct (group_contains EG_Span (e_type e)); [|eapply checked_ties; eassumption].
  apply sbind_ok in H. destruct H as (d2 & t & E & H). injection E as <- E. apply sbind_ok in H. destruct H as (d2 & lt & E2 & H). injection E2 as <- E2.
  cbv zeta in H. apply sbind_ok in H. destruct H as (d2 & set & E3 & H). injection E3 as <- E3.
  destruct (p_wrefable (props (e_type pe))).
  - destruct (get_span_keys d e) as [|x l]; [discriminate|]. apply sbind_ok in H. destruct H as (d2 & s & E4 & H). injection E4 as <- E4.
    apply sbind_ok in H. destruct H as (d2 & anc & E5 & H). injection E5 as <- E5. destruct (find (suitable d lt) anc); [|discriminate].
    eapply in_layer_ties; eassumption.
  - destruct (negb false && group_contains EG_Structure (e_type pe)); [eapply in_layer_ties; eassumption|eapply checked_ties; eassumption].
Qed.
Lemma annotate_span_ties fuel d e d1 k : fresh_for d e -> annotate_span fuel d e = (d1, Ok k) -> ties d -> ties d1.
Proof. intros FR H T. unfold annotate_span in H. destruct (negb _); [discriminate|]. destruct (get_span_keys d e); [discriminate|]. eapply annotate_ties; eassumption. Qed.
Lemma step_ties d o d' : (forall c, o <> ODetach c) -> (forall p c, o <> OAttach p c) -> careful_step d o d' -> ties d -> ties d'.
Proof.
  intros ND NA (_ & C & fuel & r & H & R & OKR) T.
  assert (E : forall d1, doc_elements d1 = doc_elements d -> ties d1) by (intros d1 Q; eapply same_ties; eassumption).
  assert (FST : d' = fst (run_op fuel d o)) by (rewrite H; reflexivity).
  destruct o; cbn [careful adds_elements run_op] in *; try rewrite forget_fst in FST.
  - destruct C as (FR & NN). subst d'. rewrite add_element_plain by (apply no_nested_add, NN). apply store_ties; assumption.
  - destruct C as (P & FR). destruct (OKR I) as [->| ->]; [|exact T]. apply forget_ok in H. destruct H as (k & H). eapply add_to_ties; [apply sh_exists, P|exact FR|exact H|exact T].
  - destruct C as (FR & NN). subst d'. apply store_ties; assumption.
  - exfalso. eapply NA. reflexivity.
  - exfalso. eapply ND. reflexivity.
  - destruct (OKR I) as [->| ->]; [|exact T]. apply forget_ok in H. destruct H as (k & H). eapply annotate_ties; eassumption.
  - destruct (OKR I) as [->| ->]; [|exact T]. apply forget_ok in H. destruct H as (k & H). eapply annotate_span_ties; eassumption.
  - apply E. subst. apply declare_elements.
  - apply E. subst. apply add_declaration_elements.
  - apply E. subst. apply doc_add_class_elements.
  - apply E. subst. apply add_provenance_elements.
  - apply E. subst. apply add_processor_elements.
  - apply E. subst. apply add_subprocessor_elements.
  - apply E. subst. apply attach_processor_elements.
  - apply E. subst. reflexivity.
  - apply E. subst. apply apply_properties_elements.
Qed.
Lemma empty_ties d st : sh_len d = 0 -> tied d st [] [].
Proof.
  intros L. assert (N : forall k e, get_elementdata d k = Some e -> False) by (intros k e G; unfold get_elementdata in G; apply st_get_lt in G; unfold sh_len in L; lia).
  split; try (intros k e G; destruct (N _ _ G)); try (intros w s k []). constructor.
Qed.
Lemma new_ties id p d : doc_new id p = (d, Ok tt) -> ties d.
Proof.
  intros H. unfold doc_new in H. apply sbind_ok in H. destruct H as (d1 & b & E & H). apply sbind_ok in H. destruct H as (d2 & k & S & H).
  assert (X : d1 = doc_empty id (dp_autodeclare p) /\ b = e_new (match dp_bodytype p with BT_Text => ET_Text | BT_Speech => ET_Speech end)) by (destruct (dp_bodytype p); cbn in E; injection E as <- <-; auto).
  destruct X as (-> & ->). clear E. pose proof (apply_properties_elements d2 p) as Q. rewrite H in Q. cbn [fst] in Q. eapply same_ties; [exact Q|].
  replace d2 with (fst (store_add (doc_empty id (dp_autodeclare p)) (e_new (match dp_bodytype p with BT_Text => ET_Text | BT_Speech => ET_Speech end)) None)) by (rewrite S; reflexivity).
  exists []. apply tied_store; [reflexivity|reflexivity|]. apply empty_ties. reflexivity.
Qed.

(* ---------------------------------------------------------------- loading *)
Lemma tied_less d st X X' done : tied d st X done ->
  (forall w, In w X -> In w X' \/ (forall e, get_elementdata d w = Some e -> e_type e <> ET_WordReference) \/ (In w (map fst done) /\ parent_of d w <> None)) -> tied d st X' done.
Proof.
  intros [TK TN TE TT TR TA] L. split; auto.
  - intros w s k I'. destruct (TT _ _ _ I') as [P|P]; [auto|]. destruct (L _ P) as [Q|[Q|(_ & Q)]]; [auto| |auto]. exfalso. destruct (TE _ _ _ I') as ((e & id & G & T & _) & _). exact (Q _ G T).
  - intros w e G T P. destruct (TA _ _ G T P) as [Q|Q]; [auto|]. destruct (L _ Q) as [Q'|[Q'|(Q' & _)]]; [auto| |auto]. exfalso. exact (Q' _ G T).
Qed.
Lemma tied_more d st X done x : tied d st X done -> tied d st (x :: X) done.
Proof. intros T. eapply tied_less; [exact T|]. intros w W. left. right. exact W. Qed.
Lemma nxt_in st : forall pre a r, NoDup st -> st = pre ++ a :: r -> nxt st a = hd_error r.
Proof.
  induction st as [|b st IH]; intros pre a r ND E; [destruct pre; discriminate E|]. inversion ND as [|? ? NB NR]; subst. destruct pre as [|x pre]; cbn [app] in E; injection E as -> E.
  - subst st. cbn [nxt]. destruct r as [|c r]; [reflexivity|]. rewrite Nat.eqb_refl. reflexivity.
  - cbn [nxt]. destruct st as [|c st]; [destruct pre; discriminate E|]. destruct (Nat.eqb_spec a x) as [->|]; [|eapply IH; [exact NR|exact E]].
    exfalso. apply NB. rewrite E. apply in_app_iff. right. left. reflexivity.
Qed.
Lemma vpar_in d st pre a r : NoDup st -> st = pre ++ a :: r -> vpar d st a = hd_error r \/ r = [].
Proof. intros ND E. unfold vpar. rewrite (nxt_in _ _ _ _ ND E). destruct r; [auto|left; reflexivity]. Qed.
Lemma vpar_out d st k : ~ In k st -> vpar d st k = parent_of d k.
Proof. intros N. unfold vpar. rewrite nxt_out by exact N. reflexivity. Qed.
Lemma ext_trans a b c : ext a b -> ext b c -> ext a c.
Proof.
  intros [O1 N1 I1 P1] [O2 N2 I2 P2]. split; auto.
  - intros k e G. destruct (O1 _ _ G) as (e1 & G1 & A1 & B1 & C1 & D1). destruct (O2 _ _ G1) as (e2 & G2 & A2 & B2 & C2 & D2). exists e2. split; [exact G2|]. split; [congruence|]. split; [congruence|]. split; [congruence|]. intros W. rewrite D2 by congruence. apply D1, W.
  - intros k e' G G'. destruct (get_elementdata b k) as [e1|] eqn:G1; [|apply N2; assumption]. destruct (N1 _ _ G G1) as (A & B). destruct (O2 _ _ G1) as (e2 & G2 & A2 & B2 & C2 & D2). rewrite G' in G2. injection G2 as <-. split; congruence.
Qed.
Lemma no_id_new d e : e_id e = None -> new_id d e.
Proof. intros N id E. congruence. Qed.
Lemma store_new d e ctx d1 k : new_id d e -> store_add d e ctx = (d1, Ok k) -> get_elementdata d k = None /\ exists x, get_elementdata d1 k = Some x /\ e_type x = e_type e.
Proof.
  intros N H. destruct (store_add_sh _ _ _ _ _ N H) as (EK & _ & S & _). split.
  - subst k. pose proof (sh_new d) as Q. unfold sh in Q. destruct (get_elementdata d (sh_len d)); [discriminate Q|reflexivity].
  - specialize (S k). rewrite Nat.eqb_refl in S. unfold sh in S. destruct (get_elementdata d1 k) as [x|]; [|discriminate S]. injection S as S _ _. eauto.
Qed.
(* features written as attributes *)
Lemma attr_ties st key l : (forall c, In c l -> feature_like c) -> forall X d d' done, get_elementdata d key <> None -> add_attr_children d key l = (d', Ok tt) -> tied d st X done ->
  tied d' st X done /\ ext d d' /\ forall j, get_elementdata d j <> None -> parent_of d' j = parent_of d j.
Proof.
  induction l as [|c l IH]; intros FL X d d' done GK H T; cbn [add_attr_children] in H; [injection H as <-; split; [exact T|split; [apply ext_refl|reflexivity]]|].
  apply sbind_ok in H. destruct H as (d1 & ck & S & H). apply sbind_ok in H. destruct H as (d2 & u & A & H). destruct u. destruct (FL c (or_introl eq_refl)) as (s & v & ->).
  destruct (ext_store d (feature_child s v) (Some key) eq_refl) as (E1 & P1). specialize (P1 eq_refl). pose proof (tied_store d st X done (feature_child s v) (Some key) eq_refl eq_refl T) as T1. rewrite S in E1, P1, T1. cbn [fst] in E1, P1, T1.
  destruct (store_new _ _ _ _ _ (no_id_new d (feature_child s v) eq_refl) S) as (NC & x & GC & TX).
  assert (NE : key <> ck) by (intros ->; contradiction). assert (PC : parent_of d1 ck = None) by (rewrite P1; unfold parent_of; rewrite NC; reflexivity).
  destruct (tied_attach _ _ _ _ _ _ _ NE PC A T1) as (T2 & PC2 & E2 & P2).
  assert (GE : forall a b, ext a b -> forall j, get_elementdata a j <> None -> get_elementdata b j <> None). { intros a b EX j G. destruct (get_elementdata a j) as [y|] eqn:GY; [|congruence]. destruct (xt_old _ _ EX _ _ GY) as (y' & G' & _). congruence. }
  assert (T2' : tied d2 st X done).
  { eapply tied_less; [exact T2|]. intros w [<-|W]; [|auto]. right. left. intros e G. destruct (xt_old _ _ E2 _ _ GC) as (y & GY & TY & _). rewrite G in GY. injection GY as <-. rewrite TY, TX. cbn. discriminate. }
  destruct (IH (fun c0 I0 => FL c0 (or_intror I0)) X d2 d' done (GE _ _ E2 _ (GE _ _ E1 _ GK)) H T2') as (T3 & E3 & P3). split; [exact T3|]. split; [exact (ext_trans _ _ _ E1 (ext_trans _ _ _ E2 E3))|].
  intros j GJ. rewrite P3 by (eapply GE, GE, GJ; eassumption). rewrite P2; [apply P1|]. intros ->. contradiction.
Qed.
Lemma ext_get a b : ext a b -> forall j, get_elementdata a j <> None -> get_elementdata b j <> None.
Proof. intros EX j G. destruct (get_elementdata a j) as [y|] eqn:GY; [|congruence]. destruct (xt_old _ _ EX _ _ GY) as (y' & G' & _). congruence. Qed.
Lemma sh_get d k : sh d k <> None -> get_elementdata d k <> None.
Proof. unfold sh. destruct (get_elementdata d k); [discriminate|]. intros N. exfalso. apply N. reflexivity. Qed.
Lemma push_ties d st s mk done : (forall s k, mk s <> DSpanReference k) -> tied d st [] done -> tied (push_data d st s mk) st [] done.
Proof. intros N T. unfold push_data. destruct (is_blank s); [exact T|]. destruct st as [|a st]; [exact T|]. apply tied_push; [apply N|exact T]. Qed.
Lemma feats_no_wref d st l attrs O name x : pinv d st l -> parse_err (parse_elem O name attrs) = Ok x -> span_refs (fst x) = [] /\ e_parent (fst x) = None /\ forall c, In c (snd x) -> feature_like c.
Proof. intros _ X. destruct (parse_elem_spec _ _ _ _ X) as (et & at_ & EX & _ & _ & FL). rewrite EX. auto. Qed.
(* post_add with the open elements: [full] lists the open elements, [st] those above key *)
Lemma post_open fuel d d' full st key done : tied d full [key] done -> ~ In key (map fst done) -> get_elementdata d key <> None -> vpar d full key = hd_error st ->
  (forall pre a r, st = pre ++ a :: r -> vpar d full a = hd_error r \/ r = []) -> (forall k, In k st -> get_elementdata d k <> None) ->
  post_add fuel d key (Some (rev st)) = (d', Ok tt) ->
  exists done', tied d' full [key] done' /\ (forall e, get_elementdata d' key = Some e -> e_type e = ET_WordReference -> In key (map fst done')) /\
    (forall j, parent_of d' j = parent_of d j).
Proof.
  intros T NI GK V VS GS H. destruct (get_elementdata d key) as [e|] eqn:G; [|congruence]. destruct (post_add_cases _ _ _ _ _ _ H G) as [(NW & E & PE)|(W & s & k & R & GT & -> & A)].
  - exists done. split.
    + apply (tied_ext d d' full full [key] [key] done); [exact E|intros j p; apply vpar_ext, E|auto| |exact T]. intros w e' _ _. rewrite PE. auto.
    + split; [|exact PE]. intros e' G' W'. exfalso. destruct (xt_old _ _ E _ _ G) as (e1 & G1 & T1 & _). rewrite G' in G1. injection G1 as <-. congruence.
  - rewrite rev_involutive in A. exists (done ++ [(key, (s, k))]). split; [apply tied_wref; auto; [eapply first_near; eassumption|right; left; reflexivity]|]. split.
    + intros _ _ _. rewrite map_app, in_app_iff. right. left. reflexivity.
    + intros j. rewrite parent_upd. destruct (Nat.eqb_spec j k) as [->|]; [|reflexivity]. unfold parent_of. destruct (get_elementdata d k); reflexivity.
Qed.
Lemma closed_ties d st X key done : tied d st X done -> (forall w, In w X -> w = key) -> (forall e, get_elementdata d key = Some e -> e_type e = ET_WordReference -> In key (map fst done)) -> parent_of d key <> None -> tied d st [] done.
Proof.
  intros T XX W P. eapply tied_less; [exact T|]. intros w I'. rewrite (XX _ I'). right. destruct (get_elementdata d key) as [e|] eqn:G; [|left; discriminate].
  destruct (et_eqb_spec (e_type e) ET_WordReference) as [Q|Q]; [right; split; [exact (W _ eq_refl Q)|exact P]|left; intros e' E; injection E as <-; exact Q].
Qed.
Lemma step_open_ties fuel O d st ev l d' p done : pinv d st (ev :: l) -> st <> [] -> tied d st [] done -> elements_step fuel O d st ev = (d', Ok p) ->
  match p with PContinue st' => exists done', tied d' st' [] done' | PBreak => d' = d /\ length st <= 1 end.
Proof.
  intros PI NS T H. pose proof PI as [F0 N0 O0 I0 X0]. pose proof (elements_step_pinv _ _ _ _ _ _ _ _ PI H) as PN.
  assert (TAG : forall attrs et at_, (exists ns name, ev = EvStart ns name attrs \/ ev = EvEmpty ns name attrs) -> (forall id, attribs_id at_ = Some id -> In id (tag_ids attrs)) -> new_id d (mkElem et at_ [] None None)).
  { intros attrs et at_ (ns & name & E) ID id EI. apply not_has_id. intros Q. apply (I0 id Q). assert (XE : xml_ids (ev :: l) = tag_ids attrs ++ xml_ids l) by (destruct E as [->| ->]; reflexivity). rewrite XE. apply in_app_iff. left. apply ID, EI. }
  assert (OG : forall k, In k st -> get_elementdata d k <> None /\ parent_of d k = None). { intros k K. destruct (O0 k K) as (A & B). split; [apply sh_get, A|rewrite <- sh_parent; exact B]. }
  destruct ev as [ns name attrs|ns name attrs|ns name|[t|]|[t|]|[t|]| |]; cbn [elements_step] in H; try discriminate; try (injection H as <- <-; exists done; exact T);
    try (injection H as <- <-; exists done; apply push_ties; [discriminate|exact T]).
  - destruct ns; try (injection H as <- <-; exists done; exact T).
    apply sbind_ok in H. destruct H as (dz & x & X & H). injection X as <- X. apply sbind_ok in H. destruct H as (d1 & key & S & H).
    apply map_err_ok in S. apply sbind_ok in H. destruct H as (d2 & u & A & H). injection H as <- <-. destruct u.
    destruct (parse_elem_spec _ _ _ _ X) as (et & at_ & EX & IDS & _ & FL). rewrite EX in S. assert (NI : new_id d (mkElem et at_ [] None None)) by (apply (TAG attrs); eauto).
    destruct (store_new _ _ _ _ _ NI S) as (NK & x0 & GK & TK). pose proof (tied_store d st [] done (mkElem et at_ [] None None) (hd_error st) eq_refl eq_refl T) as T1.
    destruct (ext_store d (mkElem et at_ [] None None) (hd_error st) eq_refl) as (E1 & P1). specialize (P1 eq_refl). rewrite S in T1, E1, P1. cbn [fst] in T1, E1, P1.
    assert (KS : ~ In key st) by (intros Q; destruct (OG _ Q); congruence).
    assert (PK : parent_of d1 key = None) by (rewrite P1; unfold parent_of; rewrite NK; reflexivity).
    assert (T2 : tied d1 (key :: st) [] done).
    { apply (tied_ext d1 d1 st (key :: st) [] [] done); [apply ext_refl| |auto|auto|exact T1]. intros k q Q. destruct (Nat.eq_dec k key) as [->|NE].
      - rewrite vpar_out in Q by exact KS. congruence.
      - unfold vpar in *. destruct st as [|b st]; [congruence|]. cbn [nxt] in *. destruct (Nat.eqb_spec k key); [contradiction|]. exact Q. }
    exists done. eapply attr_ties; [exact FL| |exact A|exact T2]. congruence.
  - destruct ns; try (injection H as <- <-; exists done; exact T).
    apply sbind_ok in H. destruct H as (dz & x & X & H). injection X as <- X. apply sbind_ok in H. destruct H as (d1 & key & S & H).
    apply map_err_ok in S. destruct (parse_elem_spec _ _ _ _ X) as (et & at_ & EX & IDS & _ & FL). rewrite EX in S. assert (NI : new_id d (mkElem et at_ [] None None)) by (apply (TAG attrs); eauto).
    destruct (store_new _ _ _ _ _ NI S) as (NK & x0 & GK & TK). pose proof (tied_store d st [] done (mkElem et at_ [] None None) (hd_error st) eq_refl eq_refl T) as T1.
    destruct (ext_store d (mkElem et at_ [] None None) (hd_error st) eq_refl) as (E1 & P1). specialize (P1 eq_refl). rewrite S in T1, E1, P1. cbn [fst] in T1, E1, P1.
    assert (KS : ~ In key st) by (intros Q; destruct (OG _ Q); congruence).
    assert (PK : parent_of d1 key = None) by (rewrite P1; unfold parent_of; rewrite NK; reflexivity).
    apply sbind_ok in H. destruct H as (d2 & u & A & H). apply sbind_ok in H. destruct H as (d3 & v & B & H). apply sbind_ok in H. destruct H as (d4 & w & C & H). injection H as <- <-.
    destruct v, w. destruct st as [|top st]; [congruence|]. destruct u. assert (NT : top <> key) by (intros ->; apply KS; left; reflexivity).
    destruct (tied_attach _ _ _ _ _ _ _ NT PK A T1) as (T2 & PK2 & E2 & P2). destruct (attr_ties (top :: st) key (snd x) FL [key] d2 d3 done) as (T3 & E3 & P3); [apply (ext_get _ _ E2); congruence|exact B|exact T2|].
    assert (NI1 : ~ In key (map fst done)) by exact (not_done _ _ _ _ T1 PK). pose proof (ext_trans _ _ _ E1 (ext_trans _ _ _ E2 E3)) as E13.
    assert (PK3 : parent_of d3 key = Some top) by (rewrite P3; [exact PK2|apply (ext_get _ _ E2); congruence]).
    destruct (post_open fuel d3 d4 (top :: st) (top :: st) key done) as (done' & T4 & W4 & P4); [exact T3|exact NI1|apply (ext_get _ _ E3), (ext_get _ _ E2); congruence| | | |exact C|].
    + rewrite vpar_out by exact KS. exact PK3.
    + intros pre a r E. eapply vpar_in; [exact N0|exact E].
    + intros k K. apply (ext_get _ _ E13), OG, K.
    + exists done'. eapply closed_ties; [exact T4|intros w [<-|[]]; reflexivity|exact W4|]. rewrite P4, PK3. discriminate.
  - destruct ns; try (injection H as <- <-; exists done; exact T). destruct st as [|key [|top st]]; try (injection H as <- <-; cbn [length]; auto).
    apply sbind_ok in H. destruct H as (d1 & u & A & H). destruct u. inversion N0 as [|? ? NK NR]; subst.
    destruct (OG key (or_introl eq_refl)) as (GK & PK).
    destruct (post_open fuel d d1 (key :: top :: st) (top :: st) key done) as (done' & T1 & W1 & P1); [apply tied_more, T|exact (not_done _ _ _ _ T PK)|exact GK| | | |exact A|].
    + unfold vpar. cbn [nxt]. rewrite Nat.eqb_refl. reflexivity.
    + intros pre a r E. eapply (vpar_in d _ (key :: pre)); [exact N0|cbn [app]; f_equal; exact E].
    + intros k K. apply OG. right. exact K.
    + destruct (get_elementdata d1 key) as [e|] eqn:G1; [|discriminate]. apply sbind_ok in H. destruct H as (dz & et & E & H). injection E as <- E.
      destruct (et_eqb (e_type e) et); [|discriminate]. apply sbind_ok in H. destruct H as (d2 & v & B & H). injection H as <- <-. destruct v.
      assert (NT : top <> key) by (intros ->; apply NK; left; reflexivity). assert (PK1 : parent_of d1 key = None) by (rewrite P1; exact PK).
      destruct (tied_attach _ _ _ _ _ _ _ NT PK1 B T1) as (T2 & PK2 & E2 & P2).
      assert (T3 : tied d2 (top :: st) [key; key] done').
      { apply (tied_ext d2 d2 (key :: top :: st) (top :: st) [key; key] [key; key] done'); [apply ext_refl| |auto|auto|exact T2]. intros k q Q. unfold vpar in Q. change (nxt (key :: top :: st) k) with (if Nat.eqb k key then Some top else nxt (top :: st) k) in Q.
        destruct (Nat.eqb_spec k key) as [->|]; [rewrite vpar_out by exact NK; congruence|exact Q]. }
      exists done'. eapply closed_ties; [exact T3|intros w [<-|[<-|[]]]; reflexivity| |congruence]. intros e' G' W'. destruct (xt_old _ _ E2 _ _ G1) as (e1 & G2 & TY & _). rewrite G' in G2. injection G2 as <-. apply (W1 e eq_refl). congruence.
Qed.

(* ---------------------------------------------------------------- moving elements that have no word references in them *)
Record moved (d d' : document) (c : nat) : Prop := {
  mv_old : forall k e, get_elementdata d k = Some e -> exists e', get_elementdata d' k = Some e' /\ e_type e' = e_type e /\ span_refs e' = span_refs e /\ e_key e' = e_key e /\ e_attribs e' = e_attribs e /\ (k <> c -> e_parent e' = e_parent e);
  mv_none : forall k, get_elementdata d k = None -> get_elementdata d' k = None;
  mv_ids : forall id, get_element_key_by_id d' id = get_element_key_by_id d id }.
Lemma moved_trans a b x c : moved a b c -> moved b x c -> moved a x c.
Proof.
  intros [O1 N1 I1] [O2 N2 I2]. split; auto; [|intros id; rewrite I2; apply I1]. intros k e G. destruct (O1 _ _ G) as (e1 & G1 & A1 & B1 & C1 & D1 & P1). destruct (O2 _ _ G1) as (e2 & G2 & A2 & B2 & C2 & D2 & P2).
  exists e2. split; [exact G2|]. split; [congruence|]. split; [congruence|]. split; [congruence|]. split; [congruence|]. intros N. rewrite P2, P1 by exact N. reflexivity.
Qed.
Lemma moved_upd d k f c : (forall e, e_type (f e) = e_type e /\ span_refs (f e) = span_refs e /\ e_key (f e) = e_key e /\ e_attribs (f e) = e_attribs e /\ (k <> c -> e_parent (f e) = e_parent e)) -> moved d (upd_element d k f) c.
Proof.
  intros H. split.
  - intros j e G. rewrite get_upd_element. destruct (Nat.eqb_spec j k) as [->|]; [|exists e; repeat split; auto]. rewrite G. exists (f e). split; [reflexivity|]. apply H.
  - intros j G. rewrite get_upd_element. destruct (Nat.eqb_spec j k) as [->|]; [rewrite G; reflexivity|exact G].
  - intros id. apply key_upd.
Qed.
Lemma moved_parent d c p : moved d (upd_element d c (e_set_parent p)) c.
Proof. apply moved_upd. intros [ty a l key par]. cbn. repeat split; auto. intros N. congruence. Qed.
Lemma moved_push d p x c : (forall s, x <> DSpanReference s) -> moved d (upd_element d p (fun e => e_push e x)) c.
Proof. intros N. apply moved_upd. intros e. split; [reflexivity|]. split; [|auto]. unfold span_refs at 1. cbn [e_data e_push e_with_data]. rewrite span_refs_app. destruct x; try apply app_nil_r. destruct (N k). reflexivity. Qed.
Lemma index_child c l i : position (is_elem c) l = Some i -> nth_error l i = Some (DElement c).
Proof.
  revert i. induction l as [|x l IH]; intros i; cbn [position]; [discriminate|]. destruct (is_elem c x) eqn:B.
  - intros Q. injection Q as <-. destruct x; try discriminate B. cbn in B. apply Nat.eqb_eq in B. subst. reflexivity.
  - destruct (position (is_elem c) l) as [j|]; [|discriminate]. cbn. intros Q. injection Q as <-. cbn. apply IH. reflexivity.
Qed.
Lemma moved_unlist d p x c : moved d (upd_element d p (e_unlist x)) c.
Proof.
  apply moved_upd. intros e. unfold e_unlist. destruct (e_index e x) as [i|] eqn:E; [|repeat split; auto]. split; [reflexivity|]. split; [|auto]. unfold span_refs. cbn [e_remove e_data e_with_data]. apply index_child in E. clear - E.
  revert i E. induction (e_data e) as [|y l IH]; intros [|i] E; try discriminate E; cbn in E.
  - injection E as ->. reflexivity.
  - cbn. f_equal. apply IH, E.
Qed.
Lemma moved_refl d c : moved d d c.
Proof. split; auto. intros k e G. exists e. repeat split; auto. Qed.
Lemma attach_moved d p c : moved d (fst (attach_element d p c)) c.
Proof.
  unfold attach_element. destruct (get_elementdata d p); [|apply moved_refl]. destruct (get_elementdata d c) as [ce|]; [|apply moved_refl]. cbn [fst].
  assert (Q : moved d (upd_element (upd_element d c (e_set_parent (Some p))) p (fun e => e_push e (DElement c))) c) by (eapply moved_trans; [apply moved_parent|apply moved_push; discriminate]).
  destruct (e_parent ce); [|exact Q]. eapply moved_trans; [exact Q|apply moved_unlist].
Qed.
Lemma detach_moved d c : moved d (fst (detach_element d c)) c.
Proof. unfold detach_element. destruct (get_elementdata d c) as [ce|]; [|apply moved_refl]. cbn [fst]. destruct (e_parent ce); [|apply moved_parent]. eapply moved_trans; [apply moved_parent|apply moved_unlist]. Qed.
Lemma moved_ties d d' c : moved d d' c -> (forall w e, get_elementdata d w = Some e -> e_type e = ET_WordReference -> w <> c /\ ~ ancestor d c w) -> ties d -> ties d'.
Proof.
  intros M NW (done & [TK TN TE TT TR TA]). exists done. pose proof M as [MO MN MI].
  assert (PR : forall k, k <> c -> parent_of d' k = parent_of d k).
  { intros k N. unfold parent_of. destruct (get_elementdata d k) as [e|] eqn:G; [|rewrite MN by exact G; reflexivity]. destruct (MO _ _ G) as (e' & -> & _ & _ & _ & _ & P). cbn. apply P, N. }
  assert (BK : forall k e', get_elementdata d' k = Some e' -> exists e, get_elementdata d k = Some e /\ e_type e' = e_type e /\ span_refs e' = span_refs e /\ e_key e' = e_key e).
  { intros k e' G'. destruct (get_elementdata d k) as [e|] eqn:G; [|rewrite MN in G' by exact G; discriminate]. destruct (MO _ _ G) as (e1 & G1 & A & B & C & _). rewrite G' in G1. injection G1 as <-. eauto. }
  assert (SP : forall k b, is_span d k b -> is_span d' k b). { intros k b (e & G & B). destruct (MO _ _ G) as (e' & G' & T & _). exists e'. rewrite T. auto. }
  assert (NR : forall x s, near d [] x s -> x <> c -> ~ ancestor d c x -> near d' [] x s).
  { intros x s N. induction N as [x s P B|x p s P B N IH]; intros NX NA; cbv [vpar nxt] in P.
    - apply near_here; [cbv [vpar nxt]; rewrite PR by exact NX; exact P|apply SP, B].
    - eapply near_up; [cbv [vpar nxt]; rewrite PR by exact NX; exact P|apply SP, B|]. apply IH; [intros ->; apply NA, anc_parent, P|intros Q; apply NA; eapply anc_up; eassumption]. }
  split.
  - intros k e' G'. destruct (BK _ _ G') as (e & G & _ & _ & K). rewrite K. apply TK, G.
  - exact TN.
  - intros w s k I'. destruct (TE _ _ _ I') as ((e & id & G & T & ID & KY) & GK & N). destruct (NW _ _ G T) as (NC & NA). split; [|split; [|apply NR; assumption]].
    + destruct (MO _ _ G) as (e' & G' & T' & _ & _ & A' & _). exists e', id. rewrite MI. unfold idref in *. rewrite A'. repeat split; congruence.
    + destruct (get_elementdata d k) as [x|] eqn:GX; [|congruence]. destruct (MO _ _ GX) as (x' & G' & _). congruence.
  - intros w s k I'. left. destruct (TE _ _ _ I') as ((e & id & G & T & _) & _). destruct (NW _ _ G T) as (NC & _). rewrite PR by exact NC. destruct (TT _ _ _ I') as [Q|[]]. exact Q.
  - intros k e' G'. destruct (BK _ _ G') as (e & G & _ & S & _). rewrite S. apply TR, G.
  - intros w e' G' T' P'. destruct (BK _ _ G') as (e & G & T & _). destruct (NW w e G) as (NC & _); [congruence|]. rewrite PR in P' by exact NC. apply (TA w e G); [congruence|exact P'].
Qed.

(* ---------------------------------------------------------------- what the invariant means *)
Lemma near_nearest d w s : near d [] w s -> nearest_span d w s.
Proof. intros N. induction N as [x s P B|x p s P B N IH]; [apply nearest_here|eapply nearest_up]; eassumption. Qed.
Lemma refers_unique d w k k' : refers d w k -> refers d w k' -> k = k'.
Proof. intros (e & id & G & _ & I' & K) (e2 & id2 & G2 & _ & I2 & K2). congruence. Qed.
Theorem ties_linked d : ties d -> spans_linked d.
Proof.
  intros (done & [TK TN TE TT TR TA]). split.
  - intros w e G T P. destruct (TA w e G T) as [Q|[]]; [unfold parent_of; rewrite G; exact P|]. apply in_map_iff in Q. destruct Q as ([w' [s k]] & E & Q). cbn in E. subst w'. destruct (TE _ _ _ Q) as (R & GK & N).
    exists k, s. split; [exact R|]. split; [exact GK|apply near_nearest, N].
  - intros k e G. exists (map fst (filter (fun x => Nat.eqb (snd (snd x)) k) done)). split; [|split].
    + clear - TN. induction done as [|x l IH]; [constructor|]. cbn [map] in TN. inversion TN as [|? ? NX NR]; subst. cbn [filter]. destruct (Nat.eqb _ k); [|apply IH, NR]. cbn [map]. constructor; [|apply IH, NR].
      intros Q. apply NX. apply in_map_iff in Q. destruct Q as (y & E & Q). apply filter_In in Q. rewrite <- E. apply in_map, Q.
    + intros w. split.
      * intros Q. apply in_map_iff in Q. destruct Q as ([w' [s k']] & E & Q). cbn in E. subst w'. apply filter_In in Q. destruct Q as (Q & K). cbn in K. apply Nat.eqb_eq in K. subst k'. split; [apply (TE _ _ _ Q)|]. destruct (TT _ _ _ Q) as [P|[]]. exact P.
      * intros (R & P). pose proof R as (x & id & GX & TX & _). destruct (TA w x GX TX P) as [Q|[]]. apply in_map_iff in Q. destruct Q as ([w' [s k']] & E & Q). cbn in E. subst w'. destruct (TE _ _ _ Q) as (R' & _).
        apply in_map_iff. exists (w, (s, k')). split; [reflexivity|]. apply filter_In. split; [exact Q|]. cbn. rewrite (refers_unique _ _ _ _ R' R). apply Nat.eqb_refl.
    + rewrite (TR _ _ G). clear - TE. induction done as [|[w [s k']] l IH]; [constructor|]. cbn [filter fst snd]. assert (R : forall w s k, In (w, (s, k)) l -> refers d w k /\ get_elementdata d k <> None /\ near d [] w s) by (intros; apply TE; right; assumption).
      destruct (Nat.eqb k' k); [|apply IH, R]. cbn [map fst snd]. constructor; [|apply IH, R]. apply near_nearest. destruct (TE w s k' (or_introl eq_refl)) as (_ & _ & N). exact N.
Qed.
