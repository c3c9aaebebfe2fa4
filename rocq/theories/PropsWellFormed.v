(* C75: the bytes written are well-formed XML. C76: a file that was cut off is not taken for a complete one. *)
From Coq Require Import String Ascii List Bool Arith NArith Lia.
From Verif Require Import Base BaseFacts Types TypesFacts SpecTable Attrib AttribFacts Element Store StoreFacts Metadata Document Select DocOps Xml Parser Serialiser History Spec
  FrameFacts InvFacts DocFacts Examples StoreThms InternFacts EncodeFacts PropsEncode LinkFacts TreeFacts ForestFacts SelSpec SelectFacts PropsLinks PropsQuery SerSpec PropsSer ParseSpec ParseFacts PropsParse PropsProv
  NoPanic Returns RoundFacts RoundProv RoundSpec RoundTree PropsRound PropsTree WellSpec LoadOk PropsWell SaveSpec SaveOk PropsSave XmlText XmlTextFacts XmlSpec PropsBytes XmlWell.
Import ListNotations.
Open Scope string_scope.

(* A saved document is a well-formed XML document. The hypothesis excludes what XML cannot express at all: control
   characters in values, two values for one attribute, and comments with a double hyphen. *)
Theorem C75_document_partial : forall fuel O d root w indent s, doc_xml fuel O d root = Ok w -> Forall legal_event w -> doc_bytes fuel O d root indent = Ok s -> well_formed_xml s.
Proof.
  intros * W L B. unfold doc_bytes in B. rewrite W in B. cbn [rbind] in B. assert (s = write_text indent w) as -> by congruence.
  destruct (doc_parts _ _ _ _ _ W) as (body & N & G & ->). apply file_ok; [exact N|exact G|reflexivity|]. rewrite app_comm_cons in L. apply Forall_app in L. apply L.
Qed.
Print Assumptions C75_document_partial.
(* So is what is written for one element, as the content of some element. *)
Theorem C75_element_partial : forall fuel O d key w indent, element_xml fuel O d key = Ok w -> Forall legal_event w -> content (write_text indent w).
Proof.
  intros * W L. pose proof (C51_element_xml_nested _ _ _ _ _ W) as N. unfold element_xml, xml_elements in W. apply rbind_ok in W. destruct W as (items & _ & W). apply items_good in W; [|reflexivity].
  destruct (indent_fine indent w N (conj W L) 0 false) as (A & B). apply content_ok; assumption.
Qed.
Print Assumptions C75_element_partial.

(* ---------------------------------------------------------------- the hypothesis can be met *)
Fixpoint everyb (p : ascii -> bool) (s : string) : bool := match s with "" => true | String a r => p a && everyb p r end.
Definition xml_charb (a : ascii) : bool := N.leb 32 (N_of_ascii a) || Ascii.eqb a "009" || Ascii.eqb a "010" || Ascii.eqb a "013".
Lemma xml_charb_spec a : xml_charb a = true -> xml_char a.
Proof.
  unfold xml_charb, xml_char. intros H. apply orb_prop in H. destruct H as [H|H]; [apply orb_prop in H; destruct H as [H|H]; [apply orb_prop in H; destruct H as [H|H]|]|].
  - left. apply N.leb_le, H.
  - right. left. apply Ascii.eqb_eq, H.
  - right. right. left. apply Ascii.eqb_eq, H.
  - right. right. right. apply Ascii.eqb_eq, H.
Qed.
Lemma everyb_spec s : everyb xml_charb s = true -> legal_text s.
Proof. induction s as [|a s IH]; cbn [everyb]; intros H; [exact Logic.I|]. apply andb_prop in H. destruct H as (A & B). split; [apply xml_charb_spec, A|apply IH, B]. Qed.
Fixpoint commentb (s : string) : bool :=
  match s with
  | "" => true
  | String a r => if Ascii.eqb a "-" then match r with "" => false | String b r' => xml_charb b && negb (Ascii.eqb b "-") && commentb r' end
                  else xml_charb a && commentb r
  end.
Lemma commentb_spec n : forall s, String.length s <= n -> commentb s = true -> comment_text s.
Proof.
  induction n as [|n IH]; intros s L H; (destruct s as [|a r]; [constructor|]); cbn [String.length] in L; [lia|]. cbn [commentb] in H. destruct (Ascii.eqb_spec a "-") as [->|N].
  - destruct r as [|b r]; [discriminate|]. apply andb_prop in H. destruct H as (H & C). apply andb_prop in H. destruct H as (A & B). cbn [String.length] in L. apply comment_hyphen; [apply xml_charb_spec, A| |apply IH; [lia|exact C]].
    intros ->. discriminate B.
  - apply andb_prop in H. destruct H as (A & C). apply comment_char; [apply xml_charb_spec, A|exact N|apply IH; [lia|exact C]].
Qed.
Definition legalb (e : wevent) : bool :=
  match e with
  | WStart _ a | WEmpty _ a => PropsLinks.nodupb (map fst a) && forallb (fun p => everyb xml_charb (snd p)) a
  | WText s => everyb xml_charb s
  | WComment s => commentb s
  | WEnd _ => true
  end.
Lemma legalb_spec e : legalb e = true -> legal_event e.
Proof.
  destruct e as [n a|n a|n|t|c]; cbn [legalb legal_event]; intros H; try exact Logic.I; [| |apply everyb_spec, H|apply (commentb_spec (String.length c)); [auto|exact H]].
  all: apply andb_prop in H; destruct H as (A & B); split; [apply PropsLinks.nodupb_spec, A|]; apply Forall_forall; intros p I'; rewrite forallb_forall in B; apply everyb_spec, B, I'.
Qed.
Definition legal_case (x : string) (d : document) : bool :=
  match doc_xml fuel1 rt_oracle d 0 with Ok w => forallb legalb w && has_sub x (write_text 2 w) | _ => false end.
(* The example document with a word whose text is full of markup and that has a comment. *)
Example C75_nonvacuous : exists d w before after, tidy d /\ doc_xml fuel1 rt_oracle d 0 = Ok w /\ Forall legal_event w /\ doc_bytes fuel1 rt_oracle d 0 2 = Ok (before ++ "<!-- a-b &amp; c -->" ++ after) /\ In (WText nasty) w.
Proof.
  destruct (careful_case [OAddElementTo 10 (mkElem ET_Word [A_Id "w.4"; A_Class "a<b"""] [DComment " a-b & c "; DAddElement (mkElem ET_TextContent [] [DText nasty] None None)] None None)]
    (fun d => legal_case "<!-- a-b &amp; c -->" d && match doc_xml fuel1 rt_oracle d 0 with Ok w => existsb (fun e => match e with WText t => String.eqb t nasty | _ => false end) w | _ => false end)) as (d & T & P); [vm_compute; reflexivity|].
  unfold legal_case in P. destruct (doc_xml fuel1 rt_oracle d 0) as [w| | |] eqn:W; try discriminate. apply andb_prop in P. destruct P as (P & Q). apply andb_prop in P. destruct P as (L & S).
  apply has_sub_spec in S. destruct S as (b & a & S). exists d, w, b, a. split; [exact T|]. split; [exact W|]. split; [apply Forall_forall; intros e I'; rewrite forallb_forall in L; apply legalb_spec, L, I'|].
  split; [unfold doc_bytes; rewrite W; cbn [rbind]; rewrite S; reflexivity|]. apply existsb_exists in Q. destruct Q as (e & I' & E). destruct e; try discriminate. apply String.eqb_eq in E. subst. exact I'.
Qed.

(* ---------------------------------------------------------------- what it rules out *)
(* No control character is in a well-formed document ... *)
Lemma every_chars_app (P : ascii -> Prop) a b : every P a -> every P b -> every P (a ++ b).
Proof. induction a as [|x a IH]; cbn [append every]; intuition auto. Qed.
Lemma part_char a : name_part a -> xml_char a.
Proof.
  unfold name_part, name_start. intros [[[H|[H|H]]|[->| ->]]|[H|[->| ->]]]; left; try lia; cbn; lia.
Qed.
Lemma every_imp (P Q : ascii -> Prop) s : (forall a, P a -> Q a) -> every P s -> every Q s.
Proof. intros H. induction s as [|a s IH]; cbn [every]; intuition auto. Qed.
Lemma name_chars n : xml_name n -> legal_text n.
Proof. intros (a & r & -> & A & R). split; [apply part_char; left; exact A|apply (every_imp name_part); [exact part_char|exact R]]. Qed.
Lemma lit s : everyb xml_charb s = true -> legal_text s.
Proof. apply everyb_spec. Qed.
Lemma ref_chars r : xml_reference r -> legal_text r.
Proof. unfold xml_reference. cbn [In]. intros H. repeat (destruct H as [<-|H]; [apply lit; reflexivity|]). destruct H. Qed.
Lemma value_chars v : att_value v -> legal_text v.
Proof. intros H. induction H as [|a s A _ _ _ H IH|r s R H IH]; [exact Logic.I|split; assumption|apply every_chars_app; [apply ref_chars, R|exact IH]]. Qed.
Lemma attribute_chars ns s : attributes ns s -> legal_text s.
Proof.
  intros H. induction H as [|n v names s N _ V H IH]; [exact Logic.I|]. repeat apply every_chars_app; try (apply lit; reflexivity); [apply name_chars, N|apply value_chars, V|exact IH].
Qed.
Lemma comment_chars c : comment_text c -> legal_text c.
Proof. intros H. induction H as [|a s A _ H IH|a s A _ H IH]; [exact Logic.I|split; assumption|]. split; [left; cbn; lia|split; assumption]. Qed.
Lemma content_chars s : content s -> legal_text s.
Proof.
  intros H. induction H as [|a s A _ _ _ H IH|r s R H IH|c s C H IH|n names atts s N A H IH|n names atts inside s N A H1 IH1 H2 IH2]; [exact Logic.I|split; assumption| | | |].
  - apply every_chars_app; [apply ref_chars, R|exact IH].
  - repeat apply every_chars_app; try (apply lit; reflexivity); [apply comment_chars, C|exact IH].
  - repeat apply every_chars_app; try (apply lit; reflexivity); [apply name_chars, N|eapply attribute_chars, A|exact IH].
  - repeat apply every_chars_app; try (apply lit; reflexivity); try (apply name_chars, N); [eapply attribute_chars, A|exact IH1|exact IH2].
Qed.
Lemma well_formed_chars s : well_formed_xml s -> legal_text s.
Proof.
  intros (n & names & atts & inside & N & A & C & ->). repeat apply every_chars_app; try (apply lit; reflexivity); try (apply name_chars, N); [eapply attribute_chars, A|apply content_chars, C].
Qed.
Lemma every_app_r (P : ascii -> Prop) a b : every P (a ++ b) -> every P b.
Proof. induction a as [|x a IH]; cbn [append every]; intuition auto. Qed.
Definition bytes_have (x : string) (d : document) : bool := match doc_bytes fuel1 rt_oracle d 0 2 with Ok s => has_sub x s | _ => false end.
Lemma bytes_have_spec x d : bytes_have x d = true -> exists before after, doc_bytes fuel1 rt_oracle d 0 2 = Ok (before ++ x ++ after).
Proof. unfold bytes_have. destruct (doc_bytes fuel1 rt_oracle d 0 2) as [s| | |]; try discriminate. intros H. apply has_sub_spec in H. destruct H as (b & a & ->). eauto. Qed.
(* ... but a text with one can be added, and is saved: the file is not well-formed. *)
Definition bell : string := String "007" "".
Theorem C75_control_refuted : exists d s, tidy d /\ doc_bytes fuel1 rt_oracle d 0 2 = Ok s /\ ~ well_formed_xml s.
Proof.
  destruct (careful_case [OAddElementTo 10 (mkElem ET_Word [A_Id "w.4"] [DAddElement (mkElem ET_TextContent [] [DText bell] None None)] None None)] (bytes_have bell)) as (d & T & P); [vm_compute; reflexivity|].
  destruct (bytes_have_spec _ _ P) as (b & a & S). exists d, (b ++ bell ++ a). split; [exact T|]. split; [exact S|]. intros W. apply well_formed_chars in W. apply every_app_r in W. destruct W as ([H|[H|[H|H]]] & _); [vm_compute in H; congruence|discriminate H|discriminate H|discriminate H].
Qed.
Print Assumptions C75_control_refuted.
(* A comment with a double hyphen is written as it is. *)
Theorem C75_comment_refuted : exists d before after, tidy d /\ doc_bytes fuel1 rt_oracle d 0 2 = Ok (before ++ "<!--a--b-->" ++ after) /\ ~ comment_text "a--b".
Proof.
  destruct (careful_case [OAddElementTo 10 (mkElem ET_Word [A_Id "w.4"] [DComment "a--b"; DAddElement (mkElem ET_TextContent [] [DText "x"] None None)] None None)] (bytes_have "<!--a--b-->")) as (d & T & P); [vm_compute; reflexivity|].
  destruct (bytes_have_spec _ _ P) as (b & a & S). exists d, b, a. split; [exact T|]. split; [exact S|]. intros H. inversion H as [|? ? _ _ H1|]; subst. inversion H1; subst; congruence.
Qed.
Print Assumptions C75_comment_refuted.
(* An element with two values for one attribute is written with both. *)
Theorem C75_double_attribute_refuted : exists d before after, tidy d /\ doc_bytes fuel1 rt_oracle d 0 2 = Ok (before ++ "<w xml:id=""w.4"" n=""1"" n=""2""" ++ after).
Proof.
  destruct (careful_case [OAddElementTo 10 (mkElem ET_Word [A_Id "w.4"; A_N "1"; A_N "2"] [] None None)] (bytes_have "<w xml:id=""w.4"" n=""1"" n=""2""")) as (d & T & P); [vm_compute; reflexivity|].
  destruct (bytes_have_spec _ _ P) as (b & a & S). exists d, b, a. auto.
Qed.
Print Assumptions C75_double_attribute_refuted.

(* ---------------------------------------------------------------- C76: files that were cut off *)
Lemma root_there l : forall d d' r, parse_root d l = Ok (d', r) -> exists before a, l = (before ++ EvStart NsFolia "FoLiA" a :: r)%list.
Proof.
  assert (K : forall ev l r, (exists before a, l = (before ++ EvStart NsFolia "FoLiA" a :: r)%list) -> exists before a, ev :: l = (before ++ EvStart NsFolia "FoLiA" a :: r)%list).
  { intros ev m r (b & a & ->). exists (ev :: b), a. reflexivity. }
  induction l as [|ev l IH]; intros d d' r H; cbn [parse_root] in H; [discriminate|]. destruct ev as [ns name a|ns name a|ns name|t|t|t| |]; try discriminate; try (apply K, (IH _ _ _ H)).
  destruct ns; try discriminate. destruct (String.eqb_spec name "FoLiA") as [->|]; [|discriminate]. apply rbind_ok in H. destruct H as (d1 & _ & H). injection H as _ ->. exists [], a. reflexivity.
Qed.
Lemma end_there l : forall d s d' r, parse_metadata d s l = (d', Ok r) -> exists before, l = (before ++ EvEnd NsFolia "metadata" :: r)%list.
Proof.
  assert (K : forall ev l r, (exists before, l = (before ++ EvEnd NsFolia "metadata" :: r)%list) -> exists before, ev :: l = (before ++ EvEnd NsFolia "metadata" :: r)%list).
  { intros ev m r (b & ->). exists (ev :: b). reflexivity. }
  induction l as [|ev l IH]; intros d s d' r H; cbn [parse_metadata] in H; [discriminate|]. destruct ev as [ns name a|ns name a|ns name|t|t|t| |]; try discriminate; try (apply K, (IH _ _ _ _ H)).
  - apply sbind_ok in H. destruct H as (d1 & s1 & _ & H). apply K, (IH _ _ _ _ H).
  - apply sbind_ok in H. destruct H as (d1 & s1 & _ & H). apply K, (IH _ _ _ _ H).
  - destruct (meta_end d s ns name) as [d1 [s1|]] eqn:E; [apply K, (IH _ _ _ _ H)|]. injection H as _ ->. exists []. unfold meta_end in E. destruct ns; try discriminate.
    destruct (String.eqb name "submetadata"); [discriminate|]. destruct (String.eqb_spec name "metadata") as [->|]; [reflexivity|].
    repeat (match type of E with context [if ?b then _ else _] => destruct b end; try discriminate).
  - destruct t as [t|]; [|discriminate]. apply K, (IH _ _ _ _ H).
Qed.
Lemma body_there O l : forall b r, parse_body O l = Ok (Some b, r) -> exists before name a, l = (before ++ EvStart NsFolia name a :: r)%list /\ (name = "text" \/ name = "speech").
Proof.
  assert (K : forall ev l r, (exists before name a, l = (before ++ EvStart NsFolia name a :: r)%list /\ (name = "text" \/ name = "speech")) -> exists before name a, ev :: l = (before ++ EvStart NsFolia name a :: r)%list /\ (name = "text" \/ name = "speech")).
  { intros ev m r (b & n & a & -> & N). exists (ev :: b), n, a. auto. }
  induction l as [|ev l IH]; intros b r H; cbn [parse_body] in H; [discriminate|]. destruct ev as [ns name a|ns name a|ns name|t|t|t| |]; try discriminate; try (apply K, (IH _ _ H)).
  destruct ns; try discriminate. exists [], name, a. destruct (String.eqb_spec name "text") as [->|]; [|destruct (String.eqb_spec name "speech") as [->|]; [|discriminate]];
    match type of H with context [parse_attributes ?x ?y ?z] => destruct (parse_attributes x y z) as [q| | |]; try discriminate end; injection H as _ ->; auto.
Qed.
(* A file that loads has, in this order, the start of the FoLiA tag, the end of the metadata and the start of the body: a
   file cut off before the body is refused. *)
Theorem C76_head_partial : forall fuel O p s d, doc_from_bytes fuel O p s = Ok d ->
  exists l1 a1 l2 l3 name a2 l4, read_text s = (l1 ++ EvStart NsFolia "FoLiA" a1 :: l2 ++ EvEnd NsFolia "metadata" :: l3 ++ EvStart NsFolia name a2 :: l4)%list /\ (name = "text" \/ name = "speech").
Proof.
  intros * H. unfold doc_from_bytes, parse_document in H. apply rbind_ok in H. destruct H as ([d1 l1] & R & H). destruct (root_there _ _ _ _ R) as (b1 & a1 & E1).
  destruct (parse_metadata d1 ms_init l1) as [d2 r] eqn:M. apply rbind_ok in H. destruct H as (l2 & -> & H). destruct (end_there _ _ _ _ _ M) as (b2 & E2).
  apply rbind_ok in H. destruct H as ([[b|] l3] & B & H); [|discriminate]. destruct (body_there _ _ _ _ B) as (b3 & name & a2 & E3 & N).
  exists b1, a1, b2, b3, name, a2, l3. rewrite E1, E2, E3. auto.
Qed.
Print Assumptions C76_head_partial.
(* It is refused with an error or a panic, not with a document, whatever was cut off: no file without a body tag loads. *)
Theorem C76_no_body_partial : forall fuel O p s, (forall name a, In (EvStart NsFolia name a) (read_text s) -> name <> "text" /\ name <> "speech") -> forall d, doc_from_bytes fuel O p s <> Ok d.
Proof.
  intros * N d H. destruct (C76_head_partial _ _ _ _ _ H) as (l1 & a1 & l2 & l3 & name & a2 & l4 & E & T).
  assert (I' : In (EvStart NsFolia name a2) (read_text s)) by (rewrite E; apply in_or_app; right; right; apply in_or_app; right; right; apply in_or_app; right; left; reflexivity).
  destruct (N _ _ I'). tauto.
Qed.
Print Assumptions C76_no_body_partial.
(* But a file cut off in the body loads without an error: the last word is lost. *)
Definition cut_at (x s : string) : string := match until_str x s with Some (p, _) => p | None => "" end.
Definition cut_case fuel O p (x id other : string) (d : document) : bool :=
  match doc_bytes fuel O d 0 2 with
  | Ok s => String.prefix (cut_at x s) s && Nat.ltb (String.length (cut_at x s)) (String.length s) && is_some (get_element_key_by_id d id) &&
            match doc_from_bytes fuel O p (cut_at x s) with Ok d' => negb (is_some (get_element_key_by_id d' id)) && is_some (get_element_key_by_id d' other) | _ => false end
  | _ => false
  end.
Lemma cut_case_spec fuel O p x id other d : cut_case fuel O p x id other d = true -> exists s cut rest d', doc_bytes fuel O d 0 2 = Ok s /\ s = cut ++ rest /\ rest <> "" /\
  doc_from_bytes fuel O p cut = Ok d' /\ get_element_key_by_id d id <> None /\ get_element_key_by_id d' other <> None /\ get_element_key_by_id d' id = None.
Proof.
  unfold cut_case. intros H.
  destruct (doc_bytes fuel O d 0 2) as [s| | |] eqn:S; try discriminate. apply andb_prop in H. destruct H as (H & H4). apply andb_prop in H. destruct H as (H & H3). apply andb_prop in H. destruct H as (H1 & H2).
  apply prefix_app in H1. destruct H1 as (rest & E). destruct (doc_from_bytes fuel O p (cut_at x s)) as [d'| | |] eqn:L; try discriminate. apply andb_prop in H4. destruct H4 as (H4 & H5).
  exists s, (cut_at x s), rest, d'. split; [reflexivity|]. split; [exact E|]. split; [intros ->; rewrite sapp_nil in E; rewrite <- E, Nat.ltb_irrefl in H2; discriminate|]. split; [exact L|].
  destruct (get_element_key_by_id d id); [|discriminate]. destruct (get_element_key_by_id d' other); [|discriminate]. destruct (get_element_key_by_id d' id); [discriminate|]. repeat split; discriminate.
Qed.
Theorem C76_cut_refuted : exists d s cut rest d', tidy d /\ doc_bytes fuel1 rt_oracle d 0 2 = Ok s /\ s = cut ++ rest /\ rest <> "" /\
  doc_from_bytes fuel1 rt_oracle no_props cut = Ok d' /\ get_element_key_by_id d "w.3" <> None /\ get_element_key_by_id d' "w.2" <> None /\ get_element_key_by_id d' "w.3" = None.
Proof.
  assert (H : cut_case fuel1 rt_oracle no_props "<w xml:id=""w.3""" "w.3" "w.2" ex_doc = true) by (vm_compute; reflexivity).
  apply cut_case_spec in H. destruct H as (s & cut & rest & d' & H). exists ex_doc, s, cut, rest, d'. split; [exact ex_tidy|exact H].
Qed.
Print Assumptions C76_cut_refuted.
(* The example document, cut off before the body, has no body tag; as a whole it loads. *)
Definition no_body_tag (l : list event) : bool := forallb (fun e => match e with EvStart NsFolia n _ => negb (String.eqb n "text" || String.eqb n "speech") | _ => true end) l.
Definition head_case fuel O p (x id : string) (d : document) : bool :=
  match doc_bytes fuel O d 0 2 with
  | Ok s => String.prefix (cut_at x s) s && negb (String.eqb (cut_at x s) "") && no_body_tag (read_text (cut_at x s)) &&
            match doc_from_bytes fuel O p s with Ok d' => is_some (get_element_key_by_id d' id) | _ => false end
  | _ => false
  end.
Lemma head_case_spec fuel O p x id d : head_case fuel O p x id d = true -> exists s cut rest d', doc_bytes fuel O d 0 2 = Ok s /\ s = cut ++ rest /\ cut <> "" /\
  (forall name a, In (EvStart NsFolia name a) (read_text cut) -> name <> "text" /\ name <> "speech") /\ doc_from_bytes fuel O p s = Ok d' /\ get_element_key_by_id d' id <> None.
Proof.
  unfold head_case. intros H.
  destruct (doc_bytes fuel O d 0 2) as [s| | |] eqn:S; try discriminate. apply andb_prop in H. destruct H as (H & H4). apply andb_prop in H. destruct H as (H & H3). apply andb_prop in H. destruct H as (H1 & H2).
  destruct (doc_from_bytes fuel O p s) as [d'| | |] eqn:L; try discriminate. apply prefix_app in H1. destruct H1 as (rest & E). exists s, (cut_at x s), rest, d'.
  split; [reflexivity|]. split; [exact E|]. split; [apply String.eqb_neq; destruct (String.eqb (cut_at x s) ""); [discriminate|reflexivity]|]. split; [|split; [exact L|destruct (get_element_key_by_id d' id); discriminate]].
  intros name a I'. unfold no_body_tag in H3. rewrite forallb_forall in H3. specialize (H3 _ I'). cbn beta iota in H3. apply negb_true_iff, orb_false_iff in H3. destruct H3 as (A & B). apply String.eqb_neq in A, B. auto.
Qed.
Example C76_nonvacuous : exists s cut rest d', doc_bytes fuel1 rt_oracle ex_doc 0 2 = Ok s /\ s = cut ++ rest /\ cut <> "" /\
  (forall name a, In (EvStart NsFolia name a) (read_text cut) -> name <> "text" /\ name <> "speech") /\ doc_from_bytes fuel1 rt_oracle no_props s = Ok d' /\ get_element_key_by_id d' "w.3" <> None.
Proof. apply (head_case_spec _ _ _ "<text>"). vm_compute. reflexivity. Qed.
