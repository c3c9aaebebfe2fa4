(* Reading back what the serialiser wrote: the elements of the body. *)
From Coq Require Import String List Bool Arith NArith Lia.
From Verif Require Import Base BaseFacts Types TypesFacts SpecTable Attrib AttribFacts Element Store StoreFacts Metadata Document Select DocOps Xml Parser Serialiser History Spec
  FrameFacts InvFacts DocFacts Examples StoreThms InternFacts EncodeFacts PropsEncode LinkFacts TreeFacts ForestFacts SelSpec SelectFacts PropsLinks PropsQuery SerSpec PropsSer ParseSpec ParseFacts PropsParse PropsProv RoundFacts RoundProv RoundSpec.
Import ListNotations.
Open Scope string_scope.
Open Scope list_scope.

(* [nodes_of l ns ks]: ns are the XML nodes of the content l, with blank text in between; ks the elements in it *)
Definition kept (l : list datatype) : list datatype := filter (fun x => negb (is_spanref x)) l.
Inductive nodes_of (O : oracle) (d : document) : list datatype -> list xnode -> list nat -> Prop :=
  | no_nil : nodes_of O d [] [] []
  | no_blank s l ns ks : blank s -> nodes_of O d l ns ks -> nodes_of O d l (XText s :: ns) ks
  | no_text s l ns ks : ~ blank s -> nodes_of O d l ns ks -> nodes_of O d (DText s :: l) (XText s :: ns) ks
  | no_comment s l ns ks : ~ blank s -> nodes_of O d l ns ks -> nodes_of O d (DComment s :: l) (XComment s :: ns) ks
  | no_element c e a inside l ns ks1 ks : get_elementdata d c = Some e -> tag_attributes O d e a -> nodes_of O d (kept (e_data e)) inside ks1 -> nodes_of O d l ns ks ->
      nodes_of O d (DElement c :: l) (XElement (et_as_str (e_type e)) (read_attrs [] a) inside :: ns) (c :: ks1 ++ ks).
Lemma nodes_app O d a x k b y m : nodes_of O d a x k -> nodes_of O d b y m -> nodes_of O d (a ++ b) (x ++ y) (k ++ m).
Proof.
  intros A B. induction A as [|s l ns ks BL _ IH|s l ns ks BL _ IH|s l ns ks BL _ IH|c e at_ inside l ns ks1 ks G T I _ _ IH]; cbn [app]; try (constructor; assumption).
  - exact B.
  - rewrite <- app_assoc. econstructor; eassumption.
Qed.
Lemma events_app a x b y : xml_events a x -> xml_events b y -> xml_events (a ++ b) (x ++ y).
Proof.
  intros A B. induction A; cbn [app]; try (constructor; assumption); try (rewrite <- app_assoc; cbn [app]; constructor; assumption). exact B.
Qed.

Section Written.
Variables (i : nat) (O : oracle) (d : document).
Hypothesis W : writable_doc d.
Lemma blank_nl : blank nl.
Proof. apply blank_iff. vm_compute. reflexivity. Qed.
Lemma spaces_blank n : blank (spaces n).
Proof. induction n as [|n IH]; cbn [spaces]; [constructor|]. apply (blank_more " " (spaces n)); [|exact IH]. vm_compute. tauto. Qed.
Lemma app_str_assoc a b c : ((a ++ b) ++ c)%string = (a ++ (b ++ c))%string.
Proof. induction a as [|x a IH]; [reflexivity|]. cbn [append]. rewrite IH. reflexivity. Qed.
Lemma blank_app a b : blank a -> blank b -> blank (a ++ b).
Proof. intros A B. induction A as [|c s I A IH]; [exact B|]. rewrite app_str_assoc. constructor; assumption. Qed.
Lemma lead_blank dep brk : blank (lead i dep brk).
Proof. unfold lead. destruct (brk && negb (Nat.eqb i 0)); [apply blank_app; [apply blank_nl|apply spaces_blank]|constructor]. Qed.
(* text read but not yet followed by a tag: blank, or the last item [pre] of the content *)
Inductive pending : bool -> string -> bool -> list datatype -> Prop :=
  | pend_blank free acc brk : blank acc -> (free = true -> acc = "") -> pending free acc brk []
  | pend_text s : ~ blank s -> pending false s false [DText s].
Lemma flush_pending free acc brk pre dep : pending free acc brk pre -> exists ns, xml_events ns (flush (acc ++ lead i dep brk)) /\ nodes_of O d pre ns [].
Proof.
  intros P. destruct P as [free acc brk B _|s B]; unfold flush.
  - pose proof (blank_app _ _ B (lead_blank dep brk)) as Q. destruct (str_is_empty (acc ++ lead i dep brk)); [exists []; split; constructor|].
    exists [XText (acc ++ lead i dep brk)]. split; [repeat constructor|constructor; [exact Q|constructor]].
  - unfold lead. cbn [andb]. rewrite str_app_empty. destruct s as [|a s]; [destruct (B blank_empty)|]. cbn [str_is_empty]. exists [XText (String a s)]. split; [repeat constructor|constructor; [exact B|constructor]].
Qed.
(* reading the written events x of the content l, after [pre] *)
Definition read_back (l : list datatype) (x : list wevent) : Prop := forall free acc brk pre dep w, pending free acc brk pre -> writable d free l ->
  exists ns ev ks free' acc' brk' mid pre', rd i dep acc brk (x ++ w) = ev ++ rd i dep acc' brk' w /\ xml_events ns ev /\
    pre ++ kept l = mid ++ pre' /\ nodes_of O d mid ns ks /\ pending free' acc' brk' pre'.
Definition read_back_element (k : nat) (x : list wevent) : Prop := forall free acc brk pre dep w, pending free acc brk pre ->
  exists ns ev ks acc' brk', rd i dep acc brk (x ++ w) = ev ++ rd i dep acc' brk' w /\ xml_events ns ev /\
    nodes_of O d (pre ++ [DElement k]) ns ks /\ pending (text_after d k) acc' brk' [].
Lemma after_start_free t dep w : exists acc brk, rd i dep "" true (after_start t ++ w) = rd i dep acc brk w /\ pending (text_first t) acc brk [].
Proof.
  unfold after_start, text_first. destruct (markup t || et_eqb t ET_TextContent || et_eqb t ET_PhonContent).
  - exists "", true. split; [reflexivity|]. constructor; [constructor|reflexivity].
  - exists nl, false. split; [reflexivity|]. constructor; [apply blank_nl|discriminate].
Qed.
Lemma after_end_free final t dep w : exists acc brk, rd i dep "" true (after_end final t ++ w) = rd i dep acc brk w /\ pending (markup t) acc brk [].
Proof.
  unfold after_end. destruct final, (markup t); cbn [orb].
  1-2,3: exists "", true; (split; [reflexivity|]); constructor; [constructor|reflexivity].
  exists nl, false. split; [reflexivity|]. constructor; [apply blank_nl|discriminate].
Qed.
(* one element with content: its start tag, what is inside, its end tag *)
Lemma full_read final k e a body w dep acc brk : get_elementdata d k = Some e -> tag_attributes O d e a -> read_back (e_data e) body ->
  exists inside ev ks acc' brk', rd i dep acc brk (WStart (et_as_str (e_type e)) a :: after_start (e_type e) ++ body ++ WEnd (et_as_str (e_type e)) :: after_end final (e_type e) ++ w) =
      flush (acc ++ lead i dep brk) ++ EvStart NsFolia (et_as_str (e_type e)) (read_attrs [] a) :: ev ++ EvEnd NsFolia (et_as_str (e_type e)) :: rd i dep acc' brk' w /\
    xml_events inside ev /\ nodes_of O d (kept (e_data e)) inside ks /\ pending (markup (e_type e)) acc' brk' [].
Proof.
  intros G TA RB. rewrite rd_start. destruct (after_start_free (e_type e) (S dep) (body ++ WEnd (et_as_str (e_type e)) :: after_end final (e_type e) ++ w)) as (a1 & b1 & -> & P1).
  destruct (RB _ _ _ _ (S dep) (WEnd (et_as_str (e_type e)) :: after_end final (e_type e) ++ w) P1 (W _ _ G)) as (ns & ev & ks & f2 & a2 & b2 & mid & pre & -> & XE & K & NO & P2).
  rewrite rd_end. destruct (flush_pending _ _ _ _ (pred (S dep)) P2) as (ns2 & XE2 & NO2). cbn [pred]. destruct (after_end_free final (e_type e) dep w) as (a3 & b3 & -> & P3).
  exists (ns ++ ns2), (ev ++ flush (a2 ++ lead i dep b2)), (ks ++ []), a3, b3. split; [rewrite <- !app_assoc; reflexivity|]. split; [apply events_app; assumption|]. split; [|exact P3].
  cbn [app] in K. unfold kept in *. rewrite K. apply nodes_app; assumption.
Qed.
Lemma written_read : (forall final k x, xml_of O d final k x -> read_back_element k x) /\ (forall final l x, xml_content O d final l x -> read_back l x).
Proof.
  apply (xml_both O d (fun final k x _ => read_back_element k x) (fun final l x _ => read_back l x)).
  - intros final k e a G D TA free acc brk pre dep w P. cbn [app]. rewrite rd_empty. destruct (flush_pending _ _ _ _ dep P) as (ns & XE & NO).
    destruct (after_start_free (e_type e) dep w) as (a1 & b1 & -> & P1).
    exists (ns ++ [XElement (et_as_str (e_type e)) (read_attrs [] a) []]), (flush (acc ++ lead i dep brk) ++ [EvEmpty NsFolia (et_as_str (e_type e)) (read_attrs [] a)]), ([] ++ k :: [] ++ []), a1, b1.
    split; [rewrite <- app_assoc; reflexivity|]. split; [apply events_app; [exact XE|]; apply (ev_empty _ _ [] []); constructor|]. split.
    + apply nodes_app; [exact NO|]. eapply no_element; [exact G|exact TA|rewrite D; constructor|constructor].
    + unfold text_after. rewrite G, D. exact P1.
  - intros final k e a body G D TA XC IH free acc brk pre dep w P. cbn [app]. rewrite <- !app_assoc. cbn [app].
    destruct (full_read final k e a body w dep acc brk G TA IH) as (inside & ev & ks & a1 & b1 & -> & XE & NO & P1). destruct (flush_pending _ _ _ _ dep P) as (ns & XE2 & NO2).
    exists (ns ++ [XElement (et_as_str (e_type e)) (read_attrs [] a) inside]), (flush (acc ++ lead i dep brk) ++ EvStart NsFolia (et_as_str (e_type e)) (read_attrs [] a) :: ev ++ [EvEnd NsFolia (et_as_str (e_type e))]), ([] ++ k :: ks ++ []), a1, b1.
    split; [rewrite <- !app_assoc; cbn [app]; rewrite <- !app_assoc; reflexivity|]. split; [apply events_app; [exact XE2|]; apply ev_element; [exact XE|constructor]|]. split.
    + apply nodes_app; [exact NO2|]. eapply no_element; [exact G|exact TA|exact NO|constructor].
    + unfold text_after. rewrite G. destruct (e_data e); [contradiction|exact P1].
  - intros final free acc brk pre dep w P _. exists [], [], [], free, acc, brk, [], pre. split; [reflexivity|]. split; [constructor|]. split; [apply app_nil_r|]. split; [constructor|exact P].
  - intros final s rest l XC IH free acc brk pre dep w P (-> & NB & WR). cbn [app]. rewrite rd_text.
    inversion P as [f a b BA E|]; subst. rewrite (E eq_refl). cbn [append].
    destruct (IH false s false [DText s] dep w (pend_text s NB) WR) as (ns & ev & ks & f2 & a2 & b2 & mid & pre' & EQ & XE & K & NO & P2).
    exists ns, ev, ks, f2, a2, b2, mid, pre'. split; [exact EQ|]. split; [exact XE|]. split; [exact K|]. split; [exact NO|exact P2].
  - intros final s rest l XC IH free acc brk pre dep w P (ES & NB & WR). cbn [app]. rewrite rd_comment, ES. destruct (flush_pending _ _ _ _ dep P) as (ns0 & XE0 & NO0).
    destruct (IH true "" true [] dep w (pend_blank true "" true blank_empty (fun _ => eq_refl)) WR) as (ns & ev & ks & f2 & a2 & b2 & mid & pre' & EQ & XE & K & NO & P2). rewrite EQ.
    exists (ns0 ++ XComment s :: ns), (flush (acc ++ lead i dep brk) ++ EvComment (Some s) :: ev), ([] ++ ks), f2, a2, b2, (pre ++ DComment s :: mid), pre'.
    split; [rewrite <- app_assoc; reflexivity|]. split; [apply events_app; [exact XE0|constructor; exact XE]|]. split; [rewrite <- app_assoc; cbn [app] in K |- *; rewrite <- K; reflexivity|].
    split; [apply nodes_app; [exact NO0|constructor; assumption]|exact P2].
  - intros final s rest l XC IH free acc brk pre dep w P WR. cbn [writable] in WR. exact (IH free acc brk pre dep w P WR).
  - intros final c rest lc l XO IHc XC IH free acc brk pre dep w P WR. cbn [writable] in WR. rewrite <- app_assoc.
    destruct (IHc free acc brk pre dep (l ++ w) P) as (ns0 & ev0 & ks0 & a1 & b1 & EQ0 & XE0 & NO0 & P1).
    destruct (IH _ a1 b1 [] dep w P1 WR) as (ns & ev & ks & f2 & a2 & b2 & mid & pre' & EQ & XE & K & NO & P2). rewrite EQ0, EQ.
    exists (ns0 ++ ns), (ev0 ++ ev), (ks0 ++ ks), f2, a2, b2, ((pre ++ [DElement c]) ++ mid), pre'.
    split; [rewrite <- app_assoc; reflexivity|]. split; [apply events_app; assumption|]. split; [rewrite <- !app_assoc; cbn [app] in K |- *; rewrite <- K; reflexivity|].
    split; [apply nodes_app; assumption|exact P2].
Qed.
End Written.

(* ---------------------------------------------------------------- the attributes of a tag, read back *)
Definition opt_list {A B} (f : A -> B) (o : option A) : list B := match o with Some x => [f x] | None => [] end.
Lemma reads_names O t l : forall seen own feats, reads_attributes O t (read_attrs seen l) own feats -> NoDup (map fst l) /\ forall k, In k (map fst l) -> ~ In k seen.
Proof.
  induction l as [|[k v] l IH]; intros seen own feats R; [split; [constructor|intros k []]|]. cbn [read_attrs] in R.
  destruct (existsb (String.eqb k) seen) eqn:E; [inversion R|].
  assert (NS : ~ In k seen). { intros I. assert (X : existsb (String.eqb k) seen = true) by (apply existsb_exists; exists k; split; [exact I|apply String.eqb_refl]). congruence. }
  assert (R' : exists own' feats', reads_attributes O t (read_attrs (k :: seen) l) own' feats') by (inversion R; subst; eauto). destruct R' as (o & f & R'). apply IH in R'. destruct R' as (ND & NI).
  cbn [map fst]. split.
  - constructor; [|exact ND]. intros I. apply (NI _ I). left. reflexivity.
  - intros k' [<-|I]; [exact NS|]. intros J. apply (NI _ I). right. exact J.
Qed.
Lemma reads_plain O t l xs : Forall2 (fun p x => parse_attrib O (fst p) (Some (snd p)) = Ok x) l xs -> forall own feats, reads_attributes O t (map plain_attr l) own feats -> own = xs /\ feats = [].
Proof.
  intros F. induction F as [|[k v] x l xs P F IH]; intros own feats R; cbn [map] in R; [inversion R; auto|]. unfold plain_attr at 1 in R. cbn [fst snd] in P, R.
  inversion R as [|y a rest o f PA R1|y v0 err rest o f PA V S R1]; subst; cbn [xa_key xa_val] in *; [|congruence]. destruct (IH _ _ R1) as (-> & ->). split; [congruence|reflexivity].
Qed.
Lemma tag_reads O d e a t own feats : tag_attributes O d e a -> (forall x, In x (e_attribs e) -> attr_in_range O x) -> reads_attributes O t (read_attrs [] a) own feats ->
  feats = [] /\ unique_types own /\ exists set subset class proc,
    own = filter visible (e_attribs e) ++ opt_list A_Set set ++ opt_list A_Subset subset ++ opt_list A_Class class ++ opt_list A_Processor proc /\
    match r_declaration_key e with
    | Ok (Some dk) =>
        (sole_declaration d dk \/ e_type e = ET_Feature -> set = None) /\
        (~ sole_declaration d dk -> e_type e <> ET_Feature -> r_set d e = Ok set) /\
        r_subset d e = Ok subset /\ r_class d e = Ok class /\
        (forall p, r_processor_key e = Ok (Some p) -> sole_processor d dk p -> proc = None) /\
        ((forall p, r_processor_key e = Ok (Some p) -> ~ sole_processor d dk p) -> r_processor d e = Ok proc)
    | _ => set = None /\ subset = None /\ class = None /\ proc = None
    end.
Proof.
  intros (sh & set & subset & class & proc & -> & F & M) IR R. destruct (reads_names _ _ _ _ _ _ R) as (ND & _). rewrite read_attrs_plain in R by (assumption || (intros ? ? [])).
  set (given_ := given "set" set ++ given "subset" subset ++ given "class" class ++ given "processor" proc) in *.
  set (opts := opt_list A_Set set ++ opt_list A_Subset subset ++ opt_list A_Class class ++ opt_list A_Processor proc).
  assert (F1 : Forall2 (fun p x => parse_attrib O (fst p) (Some (snd p)) = Ok x) sh (filter visible (e_attribs e)) /\ map fst sh = map (fun x => ab_as_str (attribtype x)) (filter visible (e_attribs e))).
  { assert (IR' : forall x, In x (filter visible (e_attribs e)) -> attr_in_range O x) by (intros x I; apply filter_In in I; apply IR, I). clear - F IR'.
    induction F as [|x [n v] l m (N & V) F IH]; [split; [constructor|reflexivity]|]. cbn [fst snd] in N, V. destruct IH as (I1 & I2); [intros y I; apply IR'; right; exact I|].
    split; [constructor; [|exact I1]; cbn [fst snd]; rewrite N; apply attr_round; [apply IR'; left; reflexivity|exact V]|cbn [map fst]; rewrite I2, N; reflexivity]. }
  assert (F2 : Forall2 (fun p x => parse_attrib O (fst p) (Some (snd p)) = Ok x) given_ opts /\ map fst given_ = map (fun x => ab_as_str (attribtype x)) opts).
  { unfold given_, opts, given, opt_list. split; [|destruct set, subset, class, proc; reflexivity].
    repeat apply Forall2_app; [destruct set|destruct subset|destruct class|destruct proc]; repeat constructor. }
  destruct F1 as (F1 & N1), F2 as (F2 & N2). destruct (reads_plain _ _ _ _ (Forall2_app F1 F2) _ _ R) as (-> & ->). split; [reflexivity|]. split.
  - rewrite map_app, N1, N2, <- map_app, <- (map_map attribtype ab_as_str) in ND. unfold unique_types. eapply NoDup_map_inv, ND.
  - exists set, subset, class, proc. split; [reflexivity|exact M].
Qed.

(* ---------------------------------------------------------------- IDs *)
(* either the first xml:id of the tag, or nothing if a double attribute comes before it *)
Lemma tag_ids_read l : forall seen, let x := if existsb (String.eqb "xml:id") seen then [] else match find (fun p => String.eqb (fst p) "xml:id") l with Some p => [snd p] | None => [] end in
  tag_ids (read_attrs seen l) = x \/ tag_ids (read_attrs seen l) = [].
Proof.
  induction l as [|[k v] l IH]; intros seen; cbn [read_attrs find fst snd]; [right; reflexivity|]. destruct (existsb (String.eqb k) seen) eqn:ES; [right; reflexivity|].
  unfold tag_ids in *. cbn [flat_map xa_key xa_val]. specialize (IH (k :: seen)). cbn [existsb] in IH. destruct (String.eqb_spec k "xml:id") as [E|N].
  - subst k. change (String.eqb "xml:id" "xml:id") with true in *. cbn [orb] in IH. rewrite ES. left. destruct IH as [IH|IH]; rewrite IH; reflexivity.
  - replace (String.eqb "xml:id" k) with false in IH by (symmetry; apply String.eqb_neq; congruence). cbn [orb] in IH. exact IH.
Qed.
Lemma tag_id O d e a : tag_attributes O d e a -> tag_ids (read_attrs [] a) = match e_id e with Some id => [id] | None => [] end \/ tag_ids (read_attrs [] a) = [].
Proof.
  intros (sh & set & subset & class & proc & -> & F & _).
  destruct (tag_ids_read (sh ++ given "set" set ++ given "subset" subset ++ given "class" class ++ given "processor" proc) []) as [Q|Q]; [left|right; exact Q]. rewrite Q. clear Q. cbn [existsb].
  assert (E : forall l, find (fun p : string * string => String.eqb (fst p) "xml:id") (l ++ given "set" set ++ given "subset" subset ++ given "class" class ++ given "processor" proc) =
    find (fun p : string * string => String.eqb (fst p) "xml:id") l).
  { intros l. induction l as [|p l IH]; cbn [app find]; [destruct set, subset, class, proc; reflexivity|]. rewrite IH. reflexivity. }
  rewrite E. clear E. unfold e_id. revert sh F. induction (e_attribs e) as [|x l IH]; intros sh F; cbn [filter] in F; [inversion F; reflexivity|].
  destruct (visible x) eqn:V.
  - inversion F as [|? [n v] ? m (N & D) F']; subst. cbn [find fst snd] in N, D |- *. rewrite N.
    destruct x; cbn [attribtype ab_as_str String.eqb Ascii.eqb Bool.eqb attribs_id]; try discriminate V; try (apply IH, F'). cbn in D. injection D as <-. reflexivity.
  - destruct x; try discriminate V; cbn [attribs_id]; apply IH, F.
Qed.
Definition id_list (d : document) (k : nat) (i : list string) : Prop := exists e, get_elementdata d k = Some e /\ (i = match e_id e with Some id => [id] | None => [] end \/ i = []).
Lemma xml_ids_cons ev l : xml_ids (ev :: l) = match ev with EvStart _ _ attrs | EvEmpty _ _ attrs => tag_ids attrs | _ => [] end ++ xml_ids l.
Proof. reflexivity. Qed.
Lemma xml_ids_app a b : xml_ids (a ++ b) = xml_ids a ++ xml_ids b.
Proof. apply flat_map_app. Qed.
Lemma node_ids O d l ns ks : nodes_of O d l ns ks -> forall ev, xml_events ns ev -> exists ids, xml_ids ev = concat ids /\ Forall2 (id_list d) ks ids.
Proof.
  intros N. induction N as [|s l ns ks B N IH|s l ns ks B N IH|s l ns ks B N IH|c e a inside l ns ks1 ks G T N1 IH1 N2 IH2]; intros ev X.
  - inversion X; subst. exists []. split; [reflexivity|constructor].
  - inversion X; subst. rewrite xml_ids_cons. apply IH. assumption.
  - inversion X; subst. rewrite xml_ids_cons. apply IH. assumption.
  - inversion X; subst. rewrite xml_ids_cons. apply IH. assumption.
  - pose proof (tag_id _ _ _ _ T) as TI. assert (IL : id_list d c (tag_ids (read_attrs [] a))) by (exists e; auto). inversion X as [|? ? ? x ? y XI XR| | | | | | |]; subst.
    + destruct (IH1 _ XI) as (i1 & E1 & F1). destruct (IH2 _ XR) as (i2 & E2 & F2). exists (tag_ids (read_attrs [] a) :: i1 ++ i2). rewrite xml_ids_cons, xml_ids_app, xml_ids_cons, E1, E2. cbn [concat app].
      rewrite concat_app. split; [reflexivity|]. constructor; [exact IL|apply Forall2_app; assumption].
    + destruct (IH1 [] (ev_nil)) as (i1 & E1 & F1). match goal with H : xml_events ns _ |- _ => destruct (IH2 _ H) as (i2 & E2 & F2) end.
      exists (tag_ids (read_attrs [] a) :: i1 ++ i2). rewrite xml_ids_cons, E2. cbn [concat]. rewrite concat_app, <- E1. split; [reflexivity|]. constructor; [exact IL|apply Forall2_app; assumption].
Qed.
Lemma ids_distinct d ks ids : reachable anything d -> NoDup ks -> Forall2 (id_list d) ks ids -> NoDup (concat ids) /\ forall id, In id (concat ids) -> exists k, In k ks /\ get_element_key_by_id d id = Some k.
Proof.
  intros R ND F. induction F as [|k i ks ids (e & G & E) F IH]; [split; [constructor|intros id []]|]. inversion_clear ND as [|? ? NI ND']. destruct (IH ND') as (A & B). cbn [concat].
  destruct E as [E|E]; [|subst i; split; [exact A|]; intros id J; destruct (B _ J) as (k' & I' & E'); exists k'; split; [right; exact I'|exact E']].
  assert (K : forall id, e_id e = Some id -> get_element_key_by_id d id = Some k) by (intros id Q; exact (proj2 (proj2 (get_by_id_element d id R)) k e G Q)).
  destruct (e_id e) as [id|]; subst i; cbn [app].
  - split.
    + constructor; [|exact A]. intros J. destruct (B _ J) as (k' & I' & E'). rewrite (K _ eq_refl) in E'. injection E' as <-. contradiction.
    + intros id' [<-|J]; [exists k; split; [left; reflexivity|apply K; reflexivity]|]. destruct (B _ J) as (k' & I' & E'). exists k'. split; [right; exact I'|exact E'].
  - split; [exact A|]. intros id J. destruct (B _ J) as (k' & I' & E'). exists k'. split; [right; exact I'|exact E'].
Qed.
(* the elements of the nodes are those of the walk *)
Lemma nodes_element O d c l ns ks : nodes_of O d (DElement c :: l) ns ks -> exists e inside ns2 ks1 ks2, get_elementdata d c = Some e /\ nodes_of O d (kept (e_data e)) inside ks1 /\ nodes_of O d l ns2 ks2 /\ ks = c :: ks1 ++ ks2.
Proof.
  intros N. remember (DElement c :: l) as q eqn:Q. induction N as [|s l0 ns ks B N IH|s l0 ns ks B N IH|s l0 ns ks B N IH|c0 e a inside l0 ns ks1 ks G T N1 IH1 N2 IH2]; try discriminate Q; [apply IH, Q|].
  injection Q as -> ->. eauto 10.
Qed.
Lemma nodes_data O d x l ns ks : (forall c, x <> DElement c) -> nodes_of O d (x :: l) ns ks -> exists ns2, nodes_of O d l ns2 ks.
Proof.
  intros NE N. remember (x :: l) as q eqn:Q. induction N as [|s l0 ns ks B N IH|s l0 ns ks B N IH|s l0 ns ks B N IH|c0 e a inside l0 ns ks1 ks G T N1 IH1 N2 IH2]; try discriminate Q; [apply IH, Q| | |].
  - injection Q as _ <-. eauto.
  - injection Q as _ <-. eauto.
  - injection Q as <- _. destruct (NE c0 eq_refl).
Qed.
Lemma nodes_nil O d ns ks : nodes_of O d [] ns ks -> ks = [].
Proof. intros N. remember (@nil datatype) as q eqn:Q. induction N; try discriminate Q; auto. Qed.
Lemma walk_nodes O d : (forall n k w, walk d RAlways n k w -> forall e ns ks, get_elementdata d k = Some e -> nodes_of O d (kept (e_data e)) ns ks -> ks = own_keys w) /\
  (forall n k t i l w, walk_data d RAlways n k t i l w -> forall ns ks, nodes_of O d (kept l) ns ks -> ks = own_keys w).
Proof.
  apply (walk_both d RAlways (fun n k w _ => forall e ns ks, get_elementdata d k = Some e -> nodes_of O d (kept (e_data e)) ns ks -> ks = own_keys w)
    (fun n k t i l w _ => forall ns ks, nodes_of O d (kept l) ns ks -> ks = own_keys w)).
  - intros n k e l G WD IH e' ns ks G' N. rewrite G in G'. injection G' as <-. eapply IH, N.
  - intros n k t i ns ks N. apply nodes_nil in N. exact N.
  - intros n k t i c rest below l DS WB IHB WL IHL ns ks N. unfold kept in N. cbn [filter is_spanref negb] in N. destruct (nodes_element _ _ _ _ _ _ N) as (e & inside & ns2 & ks1 & ks2 & G & N1 & N2 & ->).
    change (own_keys (mkItem (DElement c) k i n :: below ++ l)) with (c :: own_keys (below ++ l)). rewrite own_keys_app. f_equal. f_equal; [eapply IHB; eassumption|eapply IHL; eassumption].
  - intros n k t i x rest l NE WL IHL ns ks N. assert (NX : forall c, x <> DElement c) by (apply NE; exact I).
    assert (OK : own_keys (mkItem x k i n :: l) = own_keys l) by (destruct x; try reflexivity; destruct (NX _ eq_refl)). rewrite OK.
    unfold kept in N. cbn [filter] in N. destruct (negb (is_spanref x)); [|eapply IHL, N]. destruct (nodes_data _ _ _ _ _ _ NX N) as (ns2 & N2). eapply IHL, N2.
Qed.
Lemma nodes_nodup O d k e ns ks : consistent d -> acyclic d -> get_elementdata d k = Some e -> nodes_of O d (kept (e_data e)) ns ks -> NoDup (k :: ks).
Proof.
  intros C A G N. destruct (walk_exists d RAlways C A k) with (n := 0) as (w & WK); [congruence|]. rewrite (proj1 (walk_nodes O d) _ _ _ WK _ _ _ G N).
  destruct (proj1 (walk_nodup d RAlways C A) _ _ _ WK) as (ND & AN). constructor; [|exact ND]. intros I. apply AN in I. apply (A _ I).
Qed.

(* ---------------------------------------------------------------- what was made of the nodes *)
Lemma same_made O d d' (good : nat -> ElementType -> list Attribute -> nat -> Prop) (same : elementdata -> elementdata -> Prop) :
  (forall p c e a own feats k' e', get_elementdata d c = Some e -> tag_attributes O d e a -> reads_attributes O (e_type e) (read_attrs [] a) own feats -> good p (e_type e) own k' ->
     get_elementdata d' k' = Some e' -> e_type e' = e_type e -> feats = [] /\ same e e') ->
  forall l ns ks, nodes_of O d l ns ks -> forall p l' n, made O d' good p ns l' n -> same_content same d d' p l l' n /\ n = length ks.
Proof.
  intros HG l ns ks N. induction N as [|s l ns ks B N IH|s l ns ks B N IH|s l ns ks B N IH|c e a inside l ns ks1 ks G T N1 IH1 N2 IH2]; intros p l' n M.
  - inversion M; subst. split; [constructor|reflexivity].
  - inversion M; subst; [contradiction|]. apply IH. assumption.
  - inversion M; subst; [|contradiction]. destruct (IH p _ _ ltac:(eassumption)) as (S1 & ->). split; [constructor; exact S1|reflexivity].
  - inversion M; subst; [|contradiction]. destruct (IH p _ _ ltac:(eassumption)) as (S1 & ->). split; [constructor; exact S1|reflexivity].
  - inversion M as [|p0 nm at0 ins rs t own feats k fl il l0 fn inn n0 ET RA EL GO MF MI MR| | | | | | | |]; subst. rewrite et_from_as in ET. injection ET as <-.
    destruct EL as (e' & G' & TY & PA & CO). destruct (HG _ _ _ _ _ _ _ _ G T RA GO G' TY) as (-> & SA). inversion MF; subst. cbn [app] in CO.
    destruct (IH1 _ _ _ MI) as (S1 & ->). destruct (IH2 _ _ _ MR) as (S2 & ->). split; [|cbn [length]; rewrite app_length; lia].
    change (S (0 + length ks1 + length ks)) with (S (length ks1) + length ks). constructor; [|exact S2]. econstructor; [exact G|exact G'|exact TY|exact PA|exact SA|]. rewrite CO. exact S1.
Qed.
Lemma filter_plain l : filter other (filter visible l) = filter plain_value l.
Proof. induction l as [|a l IH]; [reflexivity|]. destruct a; cbn; rewrite ?IH; reflexivity. Qed.
Lemma filter_plain_other l : filter plain_value (filter other l) = filter plain_value l.
Proof. induction l as [|a l IH]; [reflexivity|]. destruct a; cbn; rewrite ?IH; reflexivity. Qed.
Lemma filter_plain_idem l : filter plain_value (filter plain_value l) = filter plain_value l.
Proof. induction l as [|a l IH]; [reflexivity|]. destruct a; cbn; rewrite ?IH; reflexivity. Qed.

Ltac opt_no o H := destruct o as [?|]; [destruct H as [H|[]]; discriminate H|destruct H].
Section SameAttributes.
Variables (O : oracle) (d d' : document) (k : nat) (e : elementdata) (a : list (string * string)) (own : list Attribute) (feats : list (string * string)) (k' : nat) (e' : elementdata).
Hypotheses (F : full_ok d) (F' : full_ok d') (G : get_elementdata d k = Some e) (T : tag_attributes O d e a) (IR : forall x, In x (e_attribs e) -> attr_in_range O x)
  (RA : reads_attributes O (e_type e) (read_attrs [] a) own feats) (G' : get_elementdata d' k' = Some e') (TY : e_type e' = e_type e).
Lemma opt_in {A B} (f : A -> B) o x : In (f x) (opt_list f o) -> (forall y, f y = f x -> y = x) -> o = Some x.
Proof. destruct o as [y|]; [intros [E|[]] I'; f_equal; apply I', E|intros []]. Qed.
(* the attributes read, in terms of the element written *)
Record read_own : Prop := {
  ow_feats : feats = [];
  ow_unique : unique_types own;
  ow_plain : filter other own = filter plain_value (e_attribs e);
  ow_set : forall s, In (A_Set s) own <-> shows_set d e s;
  ow_class : forall c, In (A_Class c) own <-> r_class d e = Ok (Some c);
  ow_subset : forall x, In (A_Subset x) own <-> r_subset d e = Ok (Some x);
  ow_proc : forall id, In (A_Processor id) own <-> shows_processor d e id }.
Lemma own_read : read_own.
Proof.
  destruct F as (_ & _ & _ & EO). destruct (EO _ _ G) as (p & n & AE & PL & RO). cbn in AE.
  destruct (tag_reads _ _ _ _ _ _ _ T IR RA) as (E0 & U & set & subset & class & proc & EOWN & M). split; [exact E0|exact U| | | | |]; rewrite EOWN.
  - rewrite filter_app, filter_plain. destruct set, subset, class, proc; apply app_nil_r.
  - assert (IN : forall x, In x (filter visible (e_attribs e)) -> a_encodable x = false).
    { intros x X. apply filter_In in X. destruct X as (X & V). rewrite AE in X. apply in_app_iff in X. destruct X as [X|X]; [apply (proj1 (Forall_forall _ _) PL _ X)|]. apply refs_decodable in X. destruct x; try discriminate X; discriminate V. }
    intros s. rewrite !in_app_iff. rewrite (rep_dec e p n AE PL) in M. unfold shows_set. rewrite (rep_dec e p n AE PL). split.
    + intros H. assert (E : set = Some s).
      { destruct H as [H|[H|[H|[H|H]]]]; [apply IN in H; discriminate|apply (opt_in A_Set); [exact H|congruence]|opt_no subset H|opt_no class H|opt_no proc H]. }
      subst set. destruct (en_dec n) as [dk|]; [|destruct M as (M & _); discriminate]. destruct M as (M1 & M2 & _). exists dk. split; [reflexivity|].
      assert (NS : ~ sole_declaration d dk) by (intros Q; specialize (M1 (or_introl Q)); discriminate). assert (NF : e_type e <> ET_Feature) by (intros Q; specialize (M1 (or_intror Q)); discriminate).
      split; [exact NS|]. split; [exact NF|]. apply M2; assumption.
    + intros (dk & E & NS & NF & RS). injection E as E. rewrite E in M. destruct M as (_ & M2 & _). rewrite (M2 NS NF) in RS. injection RS as ->. right. left. left. reflexivity.
  - assert (IN : forall x, In x (filter visible (e_attribs e)) -> a_encodable x = false).
    { intros x X. apply filter_In in X. destruct X as (X & V). rewrite AE in X. apply in_app_iff in X. destruct X as [X|X]; [apply (proj1 (Forall_forall _ _) PL _ X)|]. apply refs_decodable in X. destruct x; try discriminate X; discriminate V. }
    intros c. rewrite !in_app_iff. rewrite (rep_dec e p n AE PL) in M. rewrite (rep_class d e p n AE PL) in *. split.
    + intros H. assert (E : class = Some c).
      { destruct H as [H|[H|[H|[H|H]]]]; [apply IN in H; discriminate|opt_no set H|opt_no subset H|apply (opt_in A_Class); [exact H|congruence]|opt_no proc H]. }
      subst class. destruct (en_dec n) as [dk|]; [|destruct M as (_ & _ & M & _); discriminate]. apply M.
    + intros E. destruct (en_dec n) as [dk|] eqn:ED; [|destruct (en_class n); discriminate E]. destruct M as (_ & _ & _ & M & _). rewrite E in M. injection M as <-. right. right. right. left. left. reflexivity.
  - assert (IN : forall x, In x (filter visible (e_attribs e)) -> a_encodable x = false).
    { intros x X. apply filter_In in X. destruct X as (X & V). rewrite AE in X. apply in_app_iff in X. destruct X as [X|X]; [apply (proj1 (Forall_forall _ _) PL _ X)|]. apply refs_decodable in X. destruct x; try discriminate X; discriminate V. }
    intros c. rewrite !in_app_iff. rewrite (rep_dec e p n AE PL) in M. rewrite (rep_subset d e p n AE PL) in *. split.
    + intros H. assert (E : subset = Some c).
      { destruct H as [H|[H|[H|[H|H]]]]; [apply IN in H; discriminate|opt_no set H|apply (opt_in A_Subset); [exact H|congruence]|opt_no class H|opt_no proc H]. }
      subst subset. destruct (en_dec n) as [dk|]; [|destruct M as (_ & M & _); discriminate]. apply M.
    + intros E. destruct (en_dec n) as [dk|] eqn:ED; [|discriminate E]. destruct M as (_ & _ & M & _). rewrite E in M. injection M as <-. right. right. left. left. reflexivity.
  - assert (IN : forall x, In x (filter visible (e_attribs e)) -> a_encodable x = false).
    { intros x X. apply filter_In in X. destruct X as (X & V). rewrite AE in X. apply in_app_iff in X. destruct X as [X|X]; [apply (proj1 (Forall_forall _ _) PL _ X)|]. apply refs_decodable in X. destruct x; try discriminate X; discriminate V. }
    intros id. rewrite !in_app_iff. unfold shows_processor. rewrite (rep_dec e p n AE PL), (rep_proc_key e p n AE PL), (rep_proc d e p n AE PL) in *. split.
    + intros H. assert (E : proc = Some id).
      { destruct H as [H|[H|[H|[H|H]]]]; [apply IN in H; discriminate|opt_no set H|opt_no subset H|opt_no class H|apply (opt_in A_Processor); [exact H|congruence]]. }
      subst proc. destruct (en_dec n) as [dk|]; [|destruct M as (_ & _ & _ & M); discriminate]. destruct M as (_ & _ & _ & _ & M1 & M2).
      destruct (en_proc n) as [pk|]; [|exfalso; cbn in M2; specialize (M2 ltac:(discriminate)); discriminate M2]. exists dk, pk.
      assert (NS : ~ sole_processor d dk pk) by (intros Q; specialize (M1 pk eq_refl Q); discriminate).
      split; [reflexivity|]. split; [reflexivity|]. split; [exact NS|]. apply M2. intros q Q. injection Q as <-. exact NS.
    + intros (dk & pk & E1 & E2 & NS & E3). injection E1 as E1. injection E2 as E2. rewrite E1 in M. destruct M as (_ & _ & _ & _ & _ & M2). rewrite E3 in M2. rewrite E2 in M2. specialize (M2 ltac:(intros q Q; injection Q as <-; exact NS)). injection M2 as <-.
      right. right. right. right. left. reflexivity.
Qed.
Lemma layer_dec : bare_layer_tag d e /\ unnamed_layer (e_type e) own \/ ~ unnamed_layer (e_type e) own.
Proof.
  pose proof own_read as OR. destruct (unnamed_layer_dec (e_type e) own) as [U|U]; [left|right; exact U]. split; [|exact U]. destruct U as (L & U). split; [exact L|].
  intros [(s & H)|[(c & H)|[(x & H)|(id & H)]]]; [apply (ow_set OR) in H|apply (ow_class OR) in H|apply (ow_subset OR) in H|apply (ow_proc OR) in H]; apply U in H; discriminate.
Qed.
Lemma class_kind c : r_class d e = Ok (Some c) -> e_type e = ET_Feature \/ exists t, et_annotationtype (e_type e) = Some t.
Proof.
  destruct F as (_ & _ & _ & EO). destruct (EO _ _ G) as (p & n & AE & PL & RO). cbn in AE. rewrite (rep_class d e p n AE PL). destruct (en_dec n) as [dk|] eqn:ED; [|destruct (en_class n); discriminate].
  intros _. destruct (ro_kind _ _ _ RO) as [Q|Q]; [congruence|left; exact Q|]. right. destruct (et_annotationtype (e_type e)) as [t|]; [eauto|congruence].
Qed.
Lemma class_kind' c : r_class d' e' = Ok (Some c) -> e_type e = ET_Feature \/ exists t, et_annotationtype (e_type e) = Some t.
Proof.
  destruct F' as (_ & _ & _ & EO). destruct (EO _ _ G') as (p & n & AE & PL & RO). cbn in AE. rewrite (rep_class d' e' p n AE PL). destruct (en_dec n) as [dk|] eqn:ED; [|destruct (en_class n); discriminate].
  intros _. destruct (ro_kind _ _ _ RO) as [Q|Q]; [congruence|left; congruence|]. right. rewrite TY in Q. destruct (et_annotationtype (e_type e)) as [t|]; [eauto|congruence].
Qed.
Lemma set_kind s : shows_set d e s -> exists t, et_annotationtype (e_type e) = Some t.
Proof.
  destruct F as (_ & _ & _ & EO). destruct (EO _ _ G) as (p & n & AE & PL & RO). cbn in AE. intros (dk & ED & _ & NF & _). rewrite (rep_dec e p n AE PL) in ED. injection ED as ED.
  destruct (ro_kind _ _ _ RO) as [Q|Q]; [congruence|contradiction|]. destruct (et_annotationtype (e_type e)) as [t|]; [eauto|congruence].
Qed.
Lemma subset_kind x : r_subset d e = Ok (Some x) -> e_type e = ET_Feature.
Proof.
  destruct F as (_ & _ & _ & EO). destruct (EO _ _ G) as (p & n & AE & PL & RO). cbn in AE. rewrite (rep_subset d e p n AE PL). destruct (en_subset n) as [sk|] eqn:ES.
  - intros _. apply (ro_subset _ _ _ RO sk ES).
  - destruct (obind (en_dec n) (get_declaration d)); discriminate.
Qed.
Lemma attributes_same : keeps_attributes d' (e_type e) own k' -> same_attributes d d' e e'.
Proof.
  intros KA. pose proof own_read as [E0 U P1 S1 C1 B1 _]. destruct (KA e' G') as (KL & KN). destruct layer_dec as [(L & UL)|L].
  { left. split; [exact L|]. destruct (KL UL) as [Q|Q]; [left|right; exact Q]. rewrite Q, <- P1. destruct UL as (_ & UL). clear - UL. induction own as [|a l IH]; [reflexivity|]. cbn [filter]. rewrite (UL a (or_introl eq_refl)). f_equal. apply IH. intros b J. apply UL. right. exact J. }
  right. destruct (KN L) as (K0 & K1).
  split; [rewrite <- (filter_plain_other (e_attribs e')), K0, P1; apply filter_plain_idem|].
  assert (KT : forall t, et_annotationtype (e_type e) = Some t -> (exists at', et_annotationtype (e_type e) = Some at') \/ e_type e = ET_Feature /\ exists x, In (A_Subset x) own) by (intros t Q; left; eauto).
  split; [|split; [|split]].
  - intros s H. destruct (set_kind s H) as (t & AT). destruct (K1 U (KT t AT)) as (K2 & _). apply K2, S1, H.
  - intros RM c FS H. assert (AN : (exists at', et_annotationtype (e_type e) = Some at') \/ e_type e = ET_Feature /\ exists x, In (A_Subset x) own).
    { destruct (class_kind c H) as [Q|Q]; [right|left; exact Q]. split; [exact Q|]. destruct (FS Q) as (x & X). exists x. apply B1, X. }
    destruct (K1 U AN) as (_ & K2 & _). apply (K2 RM), C1, H.
  - intros NF c H. destruct (class_kind' c H) as [Q|(t & Q)]; [contradiction|]. destruct (K1 U (KT t Q)) as (_ & _ & _ & K2). apply C1, K2; assumption.
  - intros RM x H. pose proof (subset_kind x H) as FT. destruct (K1 U (or_intror (conj FT (ex_intro _ x (proj2 (B1 x) H))))) as (_ & _ & K2 & _). apply (K2 RM _ FT), B1, H.
Qed.
End SameAttributes.

(* ---------------------------------------------------------------- the document around the body *)
Lemma metadata_rest i fuel d m d1 s rest D R : w_metadata fuel d = Ok m -> reading i d1 s (m ++ rest) D R -> exists dep, R = rd i dep "" true (wnl :: rest).
Proof.
  intros W H. unfold w_metadata in W. apply rbind_ok in W. destruct W as (decls & WD & W). apply rbind_ok in W. destruct W as (prov & WP & W). injection W as <-.
  cbn [app] in H. destruct (reading_start _ _ _ _ _ _ _ _ H) as (t & d2 & s2 & _ & H2). clear H. apply reading_text in H2. rewrite <- !app_assoc in H2.
  assert (QD : Forall quiet decls).
  { unfold w_declarations in WD. apply rbind_ok in WD. destruct WD as (x & X & WD). injection WD as <-. constructor; [repeat split; discriminate|]. constructor; [exact I|]. apply Forall_app. split; [eapply w_declaration_list_quiet, X|]. repeat constructor; discriminate. }
  assert (QP : Forall quiet prov).
  { unfold w_provenance in WP. apply rbind_ok in WP. destruct WP as (x & X & WP). injection WP as <-. constructor; [repeat split; discriminate|]. constructor; [exact I|]. apply Forall_app. split; [eapply w_each_quiet; [apply w_processor_quiet|exact X]|]. repeat constructor; discriminate. }
  destruct (quiet_block _ _ QD _ _ _ _ _ H2) as (d3 & s3 & _ & _ & H3). destruct (quiet_block _ _ QP _ _ _ _ _ H3) as (d4 & s4 & _ & _ & H4).
  apply metas_read in H4. destruct H4 as (d5 & s5 & _ & H5). apply submetas_read in H5. destruct H5 as (d6 & s6 & _ & H6).
  cbn [app] in H6. apply reading_end in H6. destruct H6 as (u & _ & dep & ->). eauto.
Qed.
Lemma loading_prims i fuel O p id rest d' d1 d2 r2 : loading i fuel O p id rest d' d1 d2 r2 -> prims0 normal (doc_empty "untitled" (dp_autodeclare p)) d2.
Proof.
  intros [E (dep & acc & brk & t & M) _]. assert (FU1 : prims0 normal (doc_empty "untitled" (dp_autodeclare p)) d1).
  { apply (root_attrs_p0 normal [Some (mkXA "xml:id" (Some id)); Some (mkXA "version" (Some FOLIAVERSION))] (blank_doc p)). rewrite E. reflexivity. }
  pose proof (parse_metadata_p0 normal (go_decl _ normal_ok) (fun p0 l0 H => parse_processor_fresh _ _ H) (rd i dep acc brk rest) d1 (put_text ms_init t)) as FU2. rewrite M in FU2. exact (rtc_trans _ _ _ _ FU1 FU2).
Qed.
Lemma flush_no_start s x : In x (flush s) -> ~ starts x.
Proof. unfold flush. destruct (str_is_empty s); intros []; [|contradiction]. subst x. intros (n & a & b & Q). discriminate. Qed.
Lemma flush_no_ids s : xml_ids (flush s) = [].
Proof. unfold flush. destruct (str_is_empty s); reflexivity. Qed.
Lemma no_body O l b r : (forall x, In x l -> ~ starts x) -> parse_body O l <> Ok (Some b, r).
Proof.
  induction l as [|x l IH]; intros N; [discriminate|]. assert (N1 : forall y, In y l -> ~ starts y) by (intros; apply N; right; assumption). specialize (IH N1).
  destruct x as [ns n a|ns n a|ns n|t|t|t| |]; cbn [parse_body]; try exact IH; try discriminate. exfalso. apply (N _ (or_introl eq_refl)). eexists _, _, _. reflexivity.
Qed.
(* The parts of loading a document that was written, in terms of the document written. *)
Record loaded (fuel : nat) (O : oracle) (p : docprops) (d : document) (root : nat) (e : elementdata) (d' : document)
  (a : list (string * string)) (inside : list xnode) (ev : list event) (ks : list nat) (after : list event) (x : list Attribute * list elementdata) (d2 d3 d4 : document) (k : nat) : Prop := {
  lo_tag : tag_attributes O d e a;
  lo_events : xml_events inside ev;
  lo_nodes : nodes_of O d (kept (e_data e)) inside ks;
  lo_keys : NoDup (root :: ks);
  lo_prims : prims0 normal (doc_empty "untitled" (dp_autodeclare p)) d2;
  lo_ids : NoDup (tag_ids (read_attrs [] a) ++ xml_ids (ev ++ EvEnd NsFolia (et_as_str (e_type e)) :: after));
  lo_attrs : parse_attributes O (e_type e) (read_attrs [] a) = Ok x;
  lo_body : e_type e = ET_Text \/ e_type e = ET_Speech;
  lo_add : store_add d2 (mkElem (e_type e) (fst x) [] None None) None = (d3, Ok k);
  lo_props : apply_properties d3 p = (d4, Ok tt);
  lo_content : parse_elements fuel O d4 (ev ++ EvEnd NsFolia (et_as_str (e_type e)) :: after) = (d', Ok tt) }.
Lemma saved_body i fuel fuel' O p d root e m body d' d1 d2 r2 : tidy d -> get_elementdata d root = Some e -> writable_doc d -> w_metadata fuel d = Ok m -> xml_of O d true root body ->
  loading i fuel' O p (doc_id d) (m ++ body ++ [wnl; WEnd "FoLiA"]) d' d1 d2 r2 ->
  exists a inside ev ks after x d3 d4 k, loaded fuel' O p d root e d' a inside ev ks after x d2 d3 d4 k.
Proof.
  intros T G WD WM X L. pose proof (loading_prims _ _ _ _ _ _ _ _ _ _ L) as FU. destruct L as [_ RE (b & r3 & d3 & d4 & k & PB & ST & AP & PE)].
  destruct (metadata_rest _ _ _ _ _ _ _ _ _ WM RE) as (dep & ->). unfold wnl in *. rewrite rd_text in PB. cbn [append] in PB.
  inversion X as [f k0 e0 a G0 D0 TA EF EK EB|f k0 e0 a body0 G0 D0 TA XC EF EK EB]; subst; assert (e0 = e) by congruence; subst e0.
  - exfalso. cbn [app] in PB. rewrite rd_empty in PB. set (r := rd i dep "" true (after_start (e_type e) ++ [WText nl; WEnd "FoLiA"])) in PB.
    revert PB. apply no_body. intros y Y. apply in_app_iff in Y. destruct Y as [Y|[<-|Y]]; [eapply flush_no_start, Y|intros (? & ? & ? & Q); discriminate|].
    subst r. assert (QA : forall acc brk, In y (rd i dep acc brk [WText nl; WEnd "FoLiA"]) -> ~ starts y).
    { intros acc brk Z. rewrite rd_text, rd_end, rd_nil in Z. apply in_app_iff in Z. destruct Z as [Z|[<-|Z]]; [eapply flush_no_start, Z|intros (? & ? & ? & Q); discriminate|eapply flush_no_start, Z]. }
    destruct (after_start_free i (e_type e) dep [WText nl; WEnd "FoLiA"]) as (acc & brk & Q & _). rewrite Q in Y. eapply QA, Y.
  - cbn [app] in PB. rewrite <- !app_assoc in PB. cbn [app] in PB.
    destruct (full_read i O d WD true root e a body0 [wnl; WEnd "FoLiA"] dep nl false G TA (proj2 (written_read i O d WD) _ _ _ XC)) as (inside & ev & ks & acc & brk & E & XE & NO & _).
    unfold wnl in E. rewrite E in PB. apply body_found in PB; [|intros y; apply flush_no_start]. destruct PB as (t & x & BT & PA & -> & ->).
    assert (ET : t = e_type e /\ (e_type e = ET_Text \/ e_type e = ET_Speech)).
    { destruct BT as [(Q & ->)|(Q & ->)]; [assert (R : e_type e = ET_Text)|assert (R : e_type e = ET_Speech)]; try (rewrite R; auto); pose proof (et_from_as (e_type e)) as Z; rewrite Q in Z; injection Z as <-; reflexivity. }
    destruct ET as (-> & ET). pose proof (tidy_reachable _ T) as RN.
    pose proof (C18_links_agree_partial d T) as CO. assert (AC : acyclic d) by (intros j; apply C21_forest_partial, T).
    pose proof (nodes_nodup _ _ _ _ _ _ CO AC G NO) as ND. destruct (node_ids _ _ _ _ _ NO _ XE) as (ids & EI & FI).
    exists a, inside, ev, ks, (rd i dep acc brk [WText nl; WEnd "FoLiA"]), x, d3, d4, k. split; try assumption.
    rewrite xml_ids_app, xml_ids_cons. cbn [app]. rewrite rd_text, rd_end, rd_nil, xml_ids_app, xml_ids_cons, !flush_no_ids. cbn [app]. rewrite app_nil_r, EI. pose proof (tag_id _ _ _ _ TA) as TI.
    destruct (ids_distinct d (root :: ks) (tag_ids (read_attrs [] a) :: ids) (normal_any _ RN) ND) as (Q & _); [constructor; [exists e; auto|exact FI]|exact Q].
Qed.
