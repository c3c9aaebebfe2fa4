(* Adding a well-formed element does not fail. *)
From Coq Require Import String List Bool Arith NArith Lia.
From Verif Require Import Base BaseFacts Types TypesFacts SpecTable Attrib AttribFacts Element Store StoreFacts Metadata Document Select DocOps Xml Parser History Spec FrameFacts InvFacts DocFacts StoreThms InternFacts EncodeFacts PropsEncode LinkFacts TreeFacts ForestFacts PropsLinks NoPanic Returns PropsPanic ParseSpec ParseFacts PropsParse PropsLoad WellSpec LoadOk.
Import ListNotations.
Open Scope string_scope.
Open Scope list_scope.

(* ---------------------------------------------------------------- the span annotation above an element *)
Inductive in_span (d : document) : nat -> Prop :=
  | in_span_parent k p t : parent_of d k = Some p -> typed d p t -> In t (group_elementtypes EG_Span) -> in_span d k
  | in_span_up k p : parent_of d k = Some p -> in_span d p -> in_span d k.
Lemma span_member t : In t (group_elementtypes EG_Span) -> group_contains EG_Span t = true.
Proof. intros J. unfold group_contains. apply existsb_exists. exists t. split; [exact J|]. destruct (et_eqb_spec t t); congruence. Qed.
Lemma anc_in_span d k : in_span d k -> forall fuel, match anc_next fuel d span_selector k with Ok (Some a) => get_elementdata d a <> None | OutOfFuel | Panic => True | _ => False end.
Proof.
  intros U. induction U as [k p t P (e & G & T) I|k p P U IH]; intros [|fuel]; cbn [anc_next]; try exact I0; try exact Logic.I; unfold parent_of in P; destruct (get_elementdata d k) as [ke|]; try discriminate P; cbn in P; rewrite P.
  - rewrite (matches_span _ _ _ G), T, (span_member _ I), G. congruence.
  - inversion U as [k' q t' PP TY IS|k' q PP UU]; subst; unfold parent_of in PP; destruct (get_elementdata d p) as [pe|] eqn:G; try discriminate PP; rewrite (matches_span _ _ _ G); destruct (group_contains EG_Span (e_type pe)); congruence || apply IH.
Qed.
Lemma key_of_quiet d k x : key_of d k <> Err x.
Proof. unfold key_of. destruct (get_elementdata d k); [apply expect_quiet|discriminate]. Qed.
Lemma fine_post_added sets fuel d k e : full_ok d -> get_elementdata d k = Some e -> affordable sets d ->
  (e_type e = ET_WordReference -> in_span d k /\ exists id, attribs_last_idref (e_attribs e) None = Some id /\ has_id d id) ->
  fine sets (post_add fuel d k None).
Proof.
  intros FU G AF WR. unfold post_add. rewrite G.
  assert (L : fine sets (if group_contains EG_Layer (e_type e) && negb (e_has_attrib e AB_SET)
             then let! d0, dk := (d, layer_declaration fuel d e) in
                  match dk with
                  | Some dk0 => (upd_element d0 k (fun x => e_with_attribs x [A_DeclarationRef dk0]), Ok tt)
                  | None => (d0, Ok tt)
                  end
             else (d, Ok tt))).
  { destruct (group_contains EG_Layer (e_type e) && negb (e_has_attrib e AB_SET)); [|apply fine_ok, AF].
    apply fine_pure; [exact AF|intros x; apply layer_quiet, FU|]. intros [dk|] _; apply fine_ok; [|exact AF]. eapply affordable_like; [apply like_upd|exact AF]. }
  destruct (et_eqb_spec (e_type e) ET_WordReference) as [TY|NW]; [|destruct (e_type e); try exact L; congruence].
  clear L. rewrite TY. destruct (WR TY) as (US & id & LI & HI). unfold post_add_wref. rewrite LI. pose proof (anc_in_span d k US fuel) as AN.
  apply fine_pure; [exact AF| |].
  { intros x. destruct (anc_next fuel d span_selector k) as [[a|]| | |]; cbn [rbind]; try discriminate; try contradiction. pose proof (key_of_quiet d a) as Q. destruct (key_of d a) as [|y| |]; cbn [rbind]; try discriminate. exfalso. apply (Q y). reflexivity. }
  intros sp E. destruct sp as [sk|].
  2:{ exfalso. destruct (anc_next fuel d span_selector k) as [[a|]| | |]; cbn [rbind] in E; try discriminate; try contradiction. destruct (key_of d a); discriminate. }
  pose proof (key_by_id_np d id FU) as NP. unfold key_by_id in *. unfold has_id in HI. destruct (get_element_key_by_id d id) as [j|]; [|congruence].
  destruct (get_elementdata d j); [|congruence]. cbn [sbind]. apply fine_ok. eapply affordable_like; [apply like_upd|exact AF].
Qed.

(* ---------------------------------------------------------------- linking the children of a new element *)
(* what is known of an element waiting for its parent *)
Definition waiting (d : document) (t : ElementType) (known : string -> Prop) (k : nat) : Prop :=
  exists e own r, get_elementdata d k = Some e /\ (e_type e = ET_WordReference -> e_attribs e = filter (fun a => negb (a_encodable a)) own ++ refs r /\ In t (group_elementtypes EG_Span) /\ refers_known known own).
Lemma wref_no_layer : group_contains EG_Layer ET_WordReference = false.
Proof. reflexivity. Qed.
Lemma waiting_le a b t known k : doc_le a b -> waiting a t known k -> waiting b t known k.
Proof.
  intros LE (e & own & r & G & H). destruct (doc_le_elem _ _ _ _ LE G) as (e' & G' & [K1 K2 K3]). exists e', own, r. split; [exact G'|]. intros T. rewrite K1 in T. destruct (H T) as (A & B). split; [|exact B].
  destruct K3 as [K3|((RL & _) & _)]; [congruence|]. rewrite K1, T in RL. rewrite wref_no_layer in RL. discriminate.
Qed.
Lemma known_last known own r : refers_known known own -> exists id, attribs_last_idref (filter (fun a => negb (a_encodable a)) own ++ refs r) None = Some id /\ known id.
Proof.
  intros ((id & I) & A). set (l := filter _ own ++ refs r). assert (J : In (A_Idref id) l) by (apply in_app_iff; left; apply filter_In; auto).
  pose proof (last_idref_some l None (or_intror (ex_intro _ id J))) as N. destruct (attribs_last_idref l None) as [x|] eqn:E; [|congruence]. exists x. split; [reflexivity|].
  apply last_idref_in in E. destruct E as [E|E]; [discriminate|]. apply in_app_iff in E. destruct E as [E|E]; [apply filter_In in E; apply A, E|]. apply refs_decodable in E. discriminate.
Qed.
Lemma fine_link sets fuel q t (known : string -> Prop) ks : forall d, full_ok d -> affordable sets d -> typed d q t -> (forall id, known id -> has_id d id) -> (forall k, In k ks -> waiting d t known k) ->
  fine sets (link_children fuel d q ks).
Proof.
  induction ks as [|k ks IH]; intros d FU AF TQ KN WA; cbn [link_children]; [apply fine_ok, AF|].
  set (d1 := upd_element d k (e_set_parent (Some q))).
  assert (P1 : prims normal d d1) by (apply lift; unfold d1; apply upd_parent_p0).
  pose proof (prims_doc_le _ _ P1) as LE1. pose proof (full_prims _ _ P1 FU) as FU1.
  assert (AF1 : affordable sets d1) by (eapply affordable_like; [apply like_upd|exact AF]).
  destruct (WA k (or_introl eq_refl)) as (e & own & r & G & W).
  assert (G1 : get_elementdata d1 k = Some (e_set_parent (Some q) e)) by (unfold d1; rewrite get_upd_element, Nat.eqb_refl, G; reflexivity).
  apply fine_bind.
  - eapply fine_post_added; [exact FU1|exact G1|exact AF1|]. intros T. assert (T' : e_type e = ET_WordReference) by (destruct e; exact T). destruct (W T') as (A & B & C). split.
    + eapply (in_span_parent _ _ q t); [unfold parent_of; rewrite G1; destruct e; reflexivity|eapply typed_le; eassumption|exact B].
    + destruct (known_last known own r C) as (id & L & K). exists id. split; [|eapply has_id_le; [exact LE1|apply KN, K]]. replace (e_attribs (e_set_parent (Some q) e)) with (e_attribs e) by (destruct e; reflexivity). rewrite A. exact L.
  - intros d2 u E AF2. pose proof (post_add_p0 normal fuel d1 k None) as P2. rewrite E in P2. cbn [fst] in P2. apply lift in P2. pose proof (prims_doc_le _ _ P2) as LE2. apply IH.
    + eapply full_prims; eassumption.
    + exact AF2.
    + eapply typed_le; [exact LE2|]. eapply typed_le; eassumption.
    + intros id K. eapply has_id_le; [exact LE2|]. eapply has_id_le; [exact LE1|apply KN, K].
    + intros k' I. eapply waiting_le; [exact LE2|]. eapply waiting_le; [exact LE1|]. apply WA. right. exact I.
Qed.

(* ---------------------------------------------------------------- adding what is nested in a new element *)
Section Adds.
Context (sets : list (AnnotationType * option string)) (known : string -> Prop).
Definition adds_fine (e : elementdata) : Prop := forall fuel d, built e -> addable sets known e -> full_ok d -> affordable sets d -> (forall id, known id -> has_id d id) ->
  new_element e -> NoDup (ids_in e) -> (forall id, In id (ids_in e) -> ~ has_id d id) -> (N.of_nat (sh_len d + size_data (e_data e)) <= max_element + 1)%N ->
  fine sets (add_data fuel d (e_data e)) /\ forall d1 l ks, add_data fuel d (e_data e) = (d1, Ok (l, ks)) -> prims normal d d1 /\ forall k, In k ks -> waiting d1 (e_type e) known k.
Lemma add_children_fine fuel d e : fine sets (add_data fuel d (e_data e)) -> affordable sets d -> fine sets (add_children fuel d e).
Proof.
  intros F AF. rewrite add_children_eq. destruct (existsb is_add (e_data e)); [|apply fine_ok, AF]. apply fine_bind; [exact F|]. intros d1 x _ AF1. apply fine_ok, AF1.
Qed.
(* what is known of a document in which the content of e was just added *)
Lemma content_added fuel d e dA lc kc : add_data fuel d (e_data e) = (dA, Ok (lc, kc)) -> new_element e -> NoDup (ids_in e) -> (forall id, In id (ids_in e) -> ~ has_id d id) ->
  new_id dA (e_with_data e lc) /\ sh_len dA = sh_len d + size_data (e_data e).
Proof.
  intros A NE ND NI. destruct (all_adds_well e _ _ _ _ _ A NE ND NI) as [F1 L1 O1 P1 N1 W1 G1]. split; [|exact L1].
  intros id E. cbn in E. apply not_has_id. intros H. destruct (G1 _ H) as [H0|H0].
  - apply (NI id); [|exact H0]. rewrite ids_in_eq. unfold e_id in *. cbn in E. rewrite E. left. reflexivity.
  - rewrite ids_in_eq in ND. unfold e_id in ND, E. cbn in E. rewrite E in ND. cbn in ND. inversion ND; contradiction.
Qed.
Lemma all_adds_fine e : adds_fine e.
Proof.
  induction e as [e IH] using elem_ind. intros fuel d B AD FU AF KN NE ND NI N.
  inversion B as [e' _ BS]; subst. inversion AD as [e' _ AC NF WR]; subst.
  assert (NIT : new_items (e_data e)) by (inversion NE; split; [|split]; assumption).
  assert (NDD : NoDup (ids_data (e_data e))). { rewrite ids_in_eq in ND. apply NoDup_app_inv in ND. tauto. }
  assert (NID : forall id, In id (ids_data (e_data e)) -> ~ has_id d id). { intros id I. apply NI. rewrite ids_in_eq, in_app_iff. auto. }
  clear NE ND NI B AD. set (ty := e_type e) in *. clearbody ty. revert d FU AF KN NDD NID N. induction (e_data e) as [|x r IHr]; intros d FU AF KN ND NI N.
  - cbn [add_data]. split; [apply fine_ok, AF|]. intros d1 l ks H. injection H as <- <- <-. split; [apply rtc_refl|intros k []].
  - inversion IH as [|x' r' HX HR]; subst. destruct (new_items_cons _ _ NIT) as (NR & NX).
    assert (IHr' := IHr HR (fun c I => BS c (or_intror I)) (fun c I => AC c (or_intror I)) (fun c I => NF c (or_intror I)) (fun c I => WR c (or_intror I)) NR). clear IHr.
    destruct x as [s|k|s|k|c]; cbn [add_data]; try contradiction.
    + cbn [ids_data size_data] in *. destruct (IHr' d FU AF KN ND NI N) as (F1 & W1). split; [apply fine_bind; [exact F1|]; intros d1 y _ AF1; apply fine_ok, AF1|].
      intros d1 l ks H. apply sbind_ok in H. destruct H as (d2 & [l' ks'] & A & H). injection H as <- <- <-. apply (W1 _ _ _ A).
    + cbn [ids_data size_data] in *. destruct (IHr' d FU AF KN ND NI N) as (F1 & W1). split; [apply fine_bind; [exact F1|]; intros d1 y _ AF1; apply fine_ok, AF1|].
      intros d1 l ks H. apply sbind_ok in H. destruct H as (d2 & [l' ks'] & A & H). injection H as <- <- <-. apply (W1 _ _ _ A).
    + cbn [ids_data size_data] in *. apply NoDup_app_inv in ND. destruct ND as (NDc & NDr & DIS).
      assert (BC : built c) by (apply BS; left; reflexivity). assert (ACc : addable sets known c) by (apply AC; left; reflexivity). assert (NFc : e_type c <> ET_Feature) by (apply NF; left; reflexivity).
      assert (WRc := WR c (or_introl eq_refl)). cbn in HX. assert (NIc : forall id, In id (ids_in c) -> ~ has_id d id) by (intros id I; apply NI, in_app_iff; auto).
      assert (SZ := size_eq c). assert (NC : (N.of_nat (sh_len d + size_data (e_data c)) <= max_element + 1)%N) by lia.
      destruct (HX fuel d BC ACc FU AF KN NX NDc NIc NC) as (F1 & W1).
      assert (ST : forall dA lc kc, add_data fuel d (e_data c) = (dA, Ok (lc, kc)) -> affordable sets dA -> full_ok dA /\ (forall id, known id -> has_id dA id) /\ new_id dA (e_with_data c lc) /\ textual (e_attribs (e_with_data c lc)) /\ fine sets (store_add dA (e_with_data c lc) None)).
      { intros dA lc kc A AFA. destruct (W1 _ _ _ A) as (PA & WA). pose proof (full_prims _ _ PA FU) as FUA. destruct (content_added _ _ _ _ _ _ A NX NDc NIc) as (NWI & LA).
        assert (T : textual (e_attribs (e_with_data c lc))) by (inversion BC; destruct c; assumption).
        split; [exact FUA|]. split; [intros id K; eapply has_id_le; [apply prims_doc_le, PA|apply KN, K]|]. split; [exact NWI|]. split; [exact T|].
        apply fine_store; [exact FUA|exact T|exact AFA| |lia]. split.
        - intros a E. inversion ACc as [c' C1 _ _ _]; subst. replace (e_attribs (e_with_data c lc)) with (e_attribs c) by (destruct c; reflexivity). apply C1; [destruct c; exact E|apply first_set].
        - intros E. exfalso. apply NFc. destruct c; exact E. }
      assert (LK : forall dA lc kc dB ck, add_data fuel d (e_data c) = (dA, Ok (lc, kc)) -> affordable sets dA -> store_add dA (e_with_data c lc) None = (dB, Ok ck) -> affordable sets dB ->
        prims normal dA dB /\ full_ok dB /\ (forall id, known id -> has_id dB id) /\ waiting dB ty known ck /\ fine sets (link_children fuel dB ck kc)).
      { intros dA lc kc dB ck A AFA SA AFB. destruct (ST _ _ _ A AFA) as (FUA & KNA & NWI & T & _). destruct (W1 _ _ _ A) as (PA & WA).
        pose proof (store_add_prims normal dA _ None T) as PB. rewrite SA in PB. cbn [fst] in PB. pose proof (full_prims _ _ PB FUA) as FUB. pose proof (prims_doc_le _ _ PB) as LEB.
        destruct (store_add_spec dA (e_with_data c lc) None dB ck FUA T NWI SA) as (n & GB & _).
        assert (KNB : forall id, known id -> has_id dB id) by (intros id K; eapply has_id_le; [exact LEB|apply KNA, K]).
        split; [exact PB|]. split; [exact FUB|]. split; [exact KNB|]. split.
        - eexists _, (e_attribs c), n. split; [exact GB|]. cbn [e_type e_attribs]. intros TY. split; [destruct c; reflexivity|]. apply WRc. destruct c; exact TY.
        - eapply (fine_link sets fuel ck (e_type c) known); [exact FUB|exact AFB|eexists; split; [exact GB|destruct c; reflexivity]|exact KNB|]. intros k I. eapply waiting_le; [exact LEB|]. apply WA, I. }
      assert (RS : forall dA lc kc dB ck dC, add_data fuel d (e_data c) = (dA, Ok (lc, kc)) -> affordable sets dA -> store_add dA (e_with_data c lc) None = (dB, Ok ck) -> affordable sets dB -> link_children fuel dB ck kc = (dC, Ok tt) -> affordable sets dC ->
        prims normal d dC /\ waiting dC ty known ck /\ fine sets (add_data fuel dC r) /\ forall d1 l ks, add_data fuel dC r = (d1, Ok (l, ks)) -> prims normal dC d1 /\ forall k, In k ks -> waiting d1 ty known k).
      { intros dA lc kc dB ck dC A AFA SA AFB LC AFC. destruct (LK _ _ _ _ _ A AFA SA AFB) as (PB & FUB & KNB & WB & _). destruct (W1 _ _ _ A) as (PA & _).
        pose proof (link_children_p0 normal fuel kc dB ck) as PC. rewrite LC in PC. cbn [fst] in PC. apply lift in PC. pose proof (prims_doc_le _ _ PC) as LEC.
        destruct (add_one fuel d c dA lc kc None dB ck dC (all_adds_well c) A NX NDc NIc SA LC) as (_ & LEN & _ & _ & _ & _ & _ & GC).
        split; [eapply rtc_trans; [exact PA|]; eapply rtc_trans; eassumption|]. split; [eapply waiting_le; eassumption|].
        apply IHr'; [eapply full_prims; eassumption|exact AFC|intros id K; eapply has_id_le; [exact LEC|apply KNB, K]|exact NDr| |rewrite LEN; lia].
        intros id I Q. destruct (GC _ Q) as [Q'|Q']; [apply (NI id); [apply in_app_iff; auto|exact Q']|apply (DIS _ Q' I)]. }
      split.
      * apply fine_bind; [apply add_children_fine; assumption|]. intros dA z A AFA. destruct (add_children_data _ _ _ _ _ A) as (lc & kc & A1 & A2 & A3). rewrite A2, A3.
        apply fine_bind; [apply (ST _ _ _ A1 AFA)|]. intros dB ck SA AFB. apply fine_bind; [apply (LK _ _ _ _ _ A1 AFA SA AFB)|]. intros dC [] LC AFC.
        destruct (RS _ _ _ _ _ _ A1 AFA SA AFB LC AFC) as (_ & _ & FR & _). apply fine_bind; [exact FR|]. intros dD w _ AFD. apply fine_ok, AFD.
      * intros d1 l ks H. apply sbind_ok in H. destruct H as (dA & z & A & H). apply sbind_ok in H. destruct H as (dB & ck & SA & H). apply sbind_ok in H. destruct H as (dC & u & LC & H). destruct u.
        apply sbind_ok in H. destruct H as (dD & [l' ks'] & D & H). injection H as <- <- <-. destruct (add_children_data _ _ _ _ _ A) as (lc & kc & A1 & A2 & A3). rewrite A2 in SA. rewrite A3 in LC.
        assert (AFA : affordable sets dA) by (rewrite A1 in F1; apply F1). destruct (ST _ _ _ A1 AFA) as (_ & _ & _ & _ & FB). assert (AFB : affordable sets dB) by (rewrite SA in FB; apply FB).
        destruct (LK _ _ _ _ _ A1 AFA SA AFB) as (_ & _ & _ & _ & FC). assert (AFC : affordable sets dC) by (rewrite LC in FC; apply FC).
        destruct (RS _ _ _ _ _ _ A1 AFA SA AFB LC AFC) as (PC & WC & _ & RR). destruct (RR _ _ _ D) as (PD & WD). split; [eapply rtc_trans; eassumption|].
        cbn [snd]. intros k [<-|I]; [eapply waiting_le; [apply prims_doc_le, PD|exact WC]|apply WD, I].
Qed.
Lemma fine_map_err {A} (r : document * res A) x : fine sets r -> fine sets (map_err x r).
Proof. destruct r as [d [a|y| |]]; intros (Q & AF); cbn; split; try exact AF; try discriminate. exfalso. apply (Q y). reflexivity. Qed.
(* adding an element to a parent or to nothing, up to linking its children *)
Lemma fine_stored fuel d e ctx : built e -> addable sets known e -> full_ok d -> affordable sets d -> (forall id, known id -> has_id d id) -> fresh_for d e ->
  (N.of_nat (sh_len d + size e) <= max_element + 1)%N ->
  (e_type e = ET_Feature -> exists pk pe, ctx = Some pk /\ get_elementdata d pk = Some pe /\ forall a, et_annotationtype (e_type pe) = Some a -> In (a, first_pick pick_set (e_attribs e)) sets) ->
  fine sets (add_children fuel d e) /\ forall dA x, add_children fuel d e = (dA, Ok x) -> fine sets (store_add dA (fst x) ctx) /\
    exists lc kc, add_data fuel d (e_data e) = (dA, Ok (lc, kc)) /\ fst x = e_with_data e lc /\ opt_list (snd x) = kc /\
    forall dB ck, store_add dA (e_with_data e lc) ctx = (dB, Ok ck) -> prims normal d dB /\ full_ok dB /\ (forall id, known id -> has_id dB id) /\
      (exists ce r, get_elementdata dB ck = Some ce /\ e_type ce = e_type e /\ e_attribs ce = filter (fun a => negb (a_encodable a)) (e_attribs e) ++ refs r) /\ fine sets (link_children fuel dB ck kc).
Proof.
  intros B AD FU AF KN (NE & ND & NI) N FE. assert (NI' : forall id, In id (ids_in e) -> ~ has_id d id) by (intros id I; apply not_has_id, NI, I).
  rewrite size_eq in N. destruct (all_adds_fine e fuel d B AD FU AF KN NE ND NI' ltac:(lia)) as (F1 & W1). split; [apply add_children_fine; assumption|].
  intros dA x A. destruct (add_children_data _ _ _ _ _ A) as (lc & kc & A1 & A2 & A3). destruct (W1 _ _ _ A1) as (PA & WA). pose proof (full_prims _ _ PA FU) as FUA.
  destruct (content_added _ _ _ _ _ _ A1 NE ND NI') as (NWI & LA). assert (T : textual (e_attribs (e_with_data e lc))) by (inversion B; destruct e; assumption).
  assert (AFA : affordable sets dA) by (rewrite A1 in F1; apply F1). pose proof (prims_doc_le _ _ PA) as LEA.
  assert (FS : fine sets (store_add dA (e_with_data e lc) ctx)).
  { apply fine_store; [exact FUA|exact T|exact AFA| |lia]. replace (e_attribs (e_with_data e lc)) with (e_attribs e) in * by (destruct e; reflexivity). split.
    - intros a E. inversion AD as [c' C1 _ _ _]; subst. replace (e_attribs (e_with_data e lc)) with (e_attribs e) by (destruct e; reflexivity). apply C1; [destruct e; exact E|apply first_set].
    - intros E. destruct FE as (pk & pe & -> & G & H); [destruct e; exact E|]. destruct (doc_le_elem _ _ _ _ LEA G) as (pe' & G' & [K1 _ _]). exists pk, pe'. split; [reflexivity|]. split; [exact G'|]. rewrite K1. destruct e; exact H. }
  rewrite A2. split; [exact FS|]. exists lc, kc. split; [exact A1|]. split; [reflexivity|]. split; [exact A3|]. intros dB ck SA. rewrite SA in FS.
  pose proof (store_add_prims normal dA _ ctx T) as PB. rewrite SA in PB. cbn [fst] in PB. pose proof (full_prims _ _ PB FUA) as FUB. pose proof (prims_doc_le _ _ PB) as LEB.
  destruct (store_add_spec dA (e_with_data e lc) ctx dB ck FUA T NWI SA) as (n & GB & _).
  assert (KNB : forall id, known id -> has_id dB id) by (intros id K; eapply has_id_le; [exact LEB|]; eapply has_id_le; [exact LEA|apply KN, K]).
  split; [eapply rtc_trans; eassumption|]. split; [exact FUB|]. split; [exact KNB|]. split.
  - eexists _, n. split; [exact GB|]. split; [destruct e; reflexivity|destruct e; reflexivity].
  - eapply (fine_link sets fuel ck (e_type e) known); [exact FUB|apply FS|eexists; split; [exact GB|destruct e; reflexivity]|exact KNB|]. intros k I. eapply waiting_le; [exact LEB|]. apply WA, I.
Qed.
Lemma fine_add_element fuel d e : built e -> addable sets known e -> full_ok d -> affordable sets d -> (forall id, known id -> has_id d id) -> fresh_for d e ->
  (N.of_nat (sh_len d + size e) <= max_element + 1)%N -> e_type e <> ET_Feature -> fine sets (add_element fuel d e).
Proof.
  intros B AD FU AF KN FR N NF. destruct (fine_stored fuel d e None B AD FU AF KN FR N) as (F1 & H); [intros X; contradiction|]. unfold add_element.
  apply fine_bind; [exact F1|]. intros dA x A _. apply (H _ _ A).
Qed.
Lemma under_span d d4 a p t : (a = p \/ ancestor d a p) -> (forall j q, parent_of d j = Some q -> parent_of d4 j = Some q) -> typed d4 a t -> In t (group_elementtypes EG_Span) ->
  forall k, parent_of d4 k = Some p -> in_span d4 k.
Proof.
  intros [->|U] PP TY IS k PK; [eapply in_span_parent; eassumption|]. revert k PK. induction U as [x P|x b P U IH]; intros k PK.
  - eapply in_span_up; [exact PK|]. eapply in_span_parent; [apply PP, P|exact TY|exact IS].
  - eapply in_span_up; [exact PK|]. apply IH, PP, P.
Qed.
End Adds.
Lemma fine_add_element_to sets fuel d p e : built e -> addable sets (has_element d) e -> full_ok d -> affordable sets d -> fresh_for d e -> fits_under sets d p e ->
  (N.of_nat (sh_len d + size e) <= max_element + 1)%N -> fine sets (add_element_to fuel d p e).
Proof.
  intros B AD FU AF FR (pe & GP & FE & WR) N. pose proof FR as (NE & ND & NI). assert (NI' : forall id, In id (ids_in e) -> ~ has_id d id) by (intros id I; apply not_has_id, NI, I).
  assert (PL : p < sh_len d) by (apply sh_exists; congruence).
  destruct (fine_stored sets (has_element d) fuel d e (Some p) B AD FU AF (fun id H => H) FR N) as (F1 & H).
  { intros T. destruct (FE T) as (a & E & H). exists p, pe. split; [reflexivity|]. split; [exact GP|]. intros b Eb. replace b with a by congruence. apply H, first_set. }
  unfold add_element_to. apply fine_bind; [exact F1|]. intros dA x A AFA. destruct (H _ _ A) as (FS & lc & kc & A1 & A2 & A3 & H2). rewrite A2 in FS |- *. rewrite A3. apply fine_bind; [apply fine_map_err, FS|].
  intros dB ck SA AFB. apply map_err_ok in SA. destruct (H2 _ _ SA) as (PB & FUB & KNB & (ce & r & GB & TB & AB) & FL). apply fine_bind; [exact FL|]. intros dC [] LC AFC.
  destruct (add_one fuel d e dA lc kc (Some p) dB ck dC (all_adds_well e) A1 NE ND NI' SA LC) as (EK & LEN & _ & OC & _ & PC & XC & _).
  pose proof (link_children_p0 normal fuel kc dB ck) as PLC. rewrite LC in PLC. cbn [fst] in PLC. apply lift in PLC.
  assert (KP : p <> ck) by lia. rewrite sh_parent in PC.
  assert (XP : sh dC p <> None) by (rewrite OC by exact PL; unfold sh; rewrite GP; discriminate).
  apply fine_bind; [apply fine_attach; assumption|]. intros dD [] D AFD.
  destruct (attach_parentless dC p ck dD KP PC D) as (_ & _ & SD & LD & _).
  pose proof (attach_p0 normal dC p ck) as PD. rewrite D in PD. cbn [fst] in PD. apply lift in PD.
  assert (PBD : prims normal dB dD) by (eapply rtc_trans; eassumption). pose proof (prims_doc_le _ _ PBD) as LBD.
  apply fine_bind; [|intros dE [] _ AFE; apply fine_ok, AFE].
  destruct (doc_le_elem _ _ _ _ LBD GB) as (ce' & GD & [K1 _ K3]).
  eapply fine_post_added; [eapply full_prims; eassumption|exact GD|exact AFD|]. intros TW. assert (TE : e_type e = ET_WordReference) by congruence.
  destruct (WR TE) as (RK & a & ae & AN & GA & IS). split.
  - eapply (under_span d dD a p (e_type ae)); [exact AN| |eapply typed_le; [exact LBD|]; eapply typed_prims; [exact PB|]; exists ae; auto|exact IS|].
    + intros j q Q. rewrite <- sh_parent in Q |- *. unfold spar in *. destruct (sh d j) as [s|] eqn:S; [|discriminate Q]. assert (J : j < sh_len d) by (eapply sh_lt, S). rewrite SD, OC by exact J. rewrite S. cbn in Q |- *.
      destruct (Nat.eqb_spec j ck); [lia|exact Q].
    + rewrite <- sh_parent. unfold spar. rewrite SD. destruct (sh dC ck) as [s|]; [|congruence]. cbn. rewrite Nat.eqb_refl. reflexivity.
  - destruct (known_last _ _ r RK) as (id & LI & K). exists id. split; [|eapply has_id_le; [exact LBD|apply KNB, K]].
    destruct K3 as [K3|((RL & _) & _)]; [rewrite K3, AB; exact LI|]. rewrite TW in RL. rewrite wref_no_layer in RL. discriminate.
Qed.
