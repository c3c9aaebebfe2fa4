(* C78: the linter. *)
From Coq Require Import String Ascii List Bool Arith NArith Lia Permutation.
From Verif Require Import Base BaseFacts Types TypesFacts SpecTable Attrib AttribFacts Element Store StoreFacts Metadata Document Select DocOps Xml Parser Serialiser History Spec
  FrameFacts InvFacts DocFacts Examples StoreThms InternFacts EncodeFacts PropsEncode LinkFacts TreeFacts ForestFacts SelSpec SelectFacts PropsLinks PropsQuery SerSpec PropsSer ParseSpec ParseFacts PropsParse PropsProv
  NoPanic Returns RoundFacts RoundProv RoundSpec RoundTree PropsRound PropsTree WellSpec LoadOk PropsWell SaveSpec SaveOk PropsLoad RefFacts PropsRefs SpanSpec SpanLinks PropsSpans ResaveSpec ResaveFacts PropsResave XmlText XmlTextFacts XmlSpec PropsBytes LoadMono Lint LintSpec.
Import ListNotations.
Open Scope string_scope.
Open Scope list_scope.

(* ---------------------------------------------------------------- one file *)
Lemma lint_one fuel O f : lint fuel O [f] = match lint_file fuel O f with Ok x => ([x], Ok tt) | Err x => ([], Err x) | Panic => ([], Panic) | OutOfFuel => ([], OutOfFuel) end.
Proof. cbn [lint]. destruct (lint_file fuel O f); reflexivity. Qed.
Lemma file_cases fuel O f : (exists x, lint_file fuel O f = Ok x /\ report fuel O f x) \/ lint_file fuel O f = Panic /\ fatal fuel O f \/ lint_file fuel O f = OutOfFuel.
Proof.
  destruct f as [s|]; [|left; eexists; split; [reflexivity|constructor]]. unfold lint_file. destruct (doc_from_bytes fuel O dp_default s) as [d|x| |] eqn:L.
  - destruct (doc_bytes fuel O d 0 4) as [t|x| |] eqn:W.
    + left. eexists. split; [reflexivity|]. eapply R_saved; eassumption.
    + left. eexists. split; [reflexivity|]. eapply R_not_saved; eassumption.
    + right. left. split; [reflexivity|]. exists s. split; [reflexivity|]. right. exists d. auto.
    + auto.
  - left. eexists. split; [reflexivity|]. apply R_not_loaded, L.
  - right. left. split; [reflexivity|]. exists s. auto.
  - auto.
Qed.

(* ================================================================ C78 *)
(* What the linter says is one report for each file, in the order given, each about its file only; unless loading or saving
   a file panics, and then there are the reports on the files before it, and nothing about it and those after it. *)
Theorem C78_each_file : forall fuel O files l r, lint fuel O files = (l, r) -> r <> OutOfFuel ->
  (r = Ok tt /\ Forall2 (report fuel O) files l) \/
  (r = Panic /\ exists before f after, files = before ++ f :: after /\ fatal fuel O f /\ Forall2 (report fuel O) before l).
Proof.
  intros fuel O files. induction files as [|f files IH]; intros l r H NF; cbn [lint] in H; [left; injection H as <- <-; auto|].
  destruct (file_cases fuel O f) as [(x & E & R)|[(E & F)|E]]; rewrite E in H; [|injection H as <- <-; right; split; [reflexivity|]; exists [], f, files; auto|injection H as <- <-; contradiction NF; reflexivity].
  destruct (lint fuel O files) as [l1 r1]. cbn [fst snd] in H. injection H as <- <-. destruct (IH l1 r1 eq_refl NF) as [(-> & FA)|(-> & b & g & a & -> & FT & FA)]; [left; auto|].
  right. split; [reflexivity|]. exists (f :: b), g, a. auto.
Qed.
Print Assumptions C78_each_file.
(* the other way round: these reports are what the linter says *)
Lemma report_said fuel O f x : report fuel O f x -> f = None \/ lint_file fuel O f = Ok x.
Proof. intros [y|s y L|s d y L W|s d t L W]; [auto| | |]; right; unfold lint_file; rewrite L; try rewrite W; reflexivity. Qed.

(* What is printed is a document: it is read back as the events the saved document consists of. *)
Theorem C78_printed : forall fuel O s x, lint fuel O [Some s] = ([Printed x], Ok tt) ->
  exists d w, doc_from_bytes fuel O dp_default s = Ok d /\ doc_xml fuel O d 0 = Ok w /\ x = write_text 4 w /\ read_text x = reread 4 w.
Proof.
  intros fuel O s x H. destruct (C78_each_file fuel O [Some s] _ _ H) as [(_ & F)|(Q & _)]; [discriminate| |discriminate]. inversion_clear F as [|? ? ? ? R _]. inversion R as [| | |s' d t L W]; subst.
  unfold doc_bytes in W. apply rbind_ok in W. destruct W as (w & W & E). injection E as <-. exists d, w. split; [exact L|]. split; [exact W|]. split; [reflexivity|]. eapply C74_file_read_back, W.
Qed.
Print Assumptions C78_printed.

(* ---------------------------------------------------------------- files the library wrote *)
(* A document that was saved is accepted, and what is printed is the file, up to the order of the metadata (and the
   indentation, which is always 4 here). Partial: what C68 asks of the document; and the file must load (see C66). *)
Theorem C78_own_file_partial : forall fuel fuel' O d root e w indent d', settled d -> get_elementdata d root = Some e -> (e_parent e <> None \/ root = 0) ->
  writable_doc d -> values_in_range O d -> plain_props d dp_default -> provenance_complete d -> metadata_simple d -> features_home d -> features_complete d -> bare_layers_plain d -> spanned_full d root -> end_unspanned d root ->
  doc_xml fuel O d root = Ok w -> NoDup (xml_ids (reread indent w)) -> doc_from_bytes fuel' O dp_default (write_text indent w) = Ok d' -> room d' ->
  exists w' n, same_file w w' /\ forall m, n <= m -> lint m O [Some (write_text indent w)] = ([Printed (write_text 4 w')], Ok tt).
Proof.
  intros fuel fuel' O d root e w indent d' S G PA WD VR PP PC MS FH FC BL SF EU W ND L RM. pose proof L as L0. unfold doc_from_bytes in L0. rewrite (C74_file_read_back _ _ _ _ _ indent W) in L0.
  destruct (C68_file_again_partial fuel fuel' O dp_default d root e w indent d' S G PA WD VR PP PC MS FH FC BL SF EU W ND L0 RM) as (w' & n & SW & _ & AG).
  exists w', (n + fuel'). split; [exact SW|]. intros m LM. rewrite lint_one. unfold lint_file. rewrite (bytes_mono fuel' m) by (try lia; rewrite L; discriminate). rewrite L.
  unfold doc_bytes. rewrite (AG m) by lia. reflexivity.
Qed.
Print Assumptions C78_own_file_partial.

Lemma metas_app a b : metas (a ++ b) = metas a + metas b.
Proof. unfold metas. rewrite filter_app, app_length. reflexivity. Qed.
Lemma metas_tags l : metas (meta_tags l) = length l.
Proof. induction l as [|p l IH]; [reflexivity|]. change (meta_tags (p :: l)) with ([WStart "meta" [("id", fst p)]; WText (snd p); WEnd "meta"; WText nl] ++ meta_tags l). rewrite metas_app, IH. reflexivity. Qed.
Lemma one_order w w' : same_file w w' -> metas w <= 1 -> w' = w.
Proof.
  intros (a & l & l' & b & -> & -> & P). rewrite !metas_app, metas_tags. intros L. pose proof (Permutation_length P) as LE. destruct l as [|x [|y l]]; cbn [length] in *; [| |lia].
  - apply Permutation_nil in P. subst. reflexivity.
  - apply Permutation_length_1_inv in P. subst. reflexivity.
Qed.
(* So if it was saved with the indentation of the linter, and no more than one key/value pair, it is printed as it is. *)
Theorem C78_fixpoint_partial : forall fuel fuel' O d root e w d', settled d -> get_elementdata d root = Some e -> (e_parent e <> None \/ root = 0) ->
  writable_doc d -> values_in_range O d -> plain_props d dp_default -> provenance_complete d -> metadata_simple d -> features_home d -> features_complete d -> bare_layers_plain d -> spanned_full d root -> end_unspanned d root ->
  doc_xml fuel O d root = Ok w -> metas w <= 1 -> NoDup (xml_ids (reread 4 w)) -> doc_from_bytes fuel' O dp_default (write_text 4 w) = Ok d' -> room d' ->
  exists n, forall m, n <= m -> doc_bytes fuel O d root 4 = Ok (write_text 4 w) /\ lint m O [Some (write_text 4 w)] = ([Printed (write_text 4 w)], Ok tt).
Proof.
  intros * S G PA WD VR PP PC MS FH FC BL SF EU W ME ND L RM.
  destruct (C78_own_file_partial fuel fuel' O d root e w 4 d' S G PA WD VR PP PC MS FH FC BL SF EU W ND L RM) as (w' & n & SW & H). rewrite (one_order _ _ SW ME) in H.
  exists n. intros m LM. split; [unfold doc_bytes; rewrite W; reflexivity|apply H, LM].
Qed.
Print Assumptions C78_fixpoint_partial.

(* ---------------------------------------------------------------- examples *)
(* the example document with a feature and annotations by two processors, linted *)
Definition lint_case (d : document) : bool :=
  match doc_xml fuel1 rt_oracle d 0 with
  | Ok w => match doc_from_bytes fuel1 rt_oracle dp_default (write_text 4 w) with
            | Ok d' => resavable d && PropsLinks.nodupb (xml_ids (reread 4 w)) && roomb d' && resavable_layers d && resavable_spans d && end_unspannedb 9 d 0 && is_some (get_elementdata d 0) && declares_text d && Nat.leb (metas w) 1 &&
               has_tag "feat" [("xml:id", "f.1"); ("subset", "number"); ("class", "plural")] w
            | _ => false end
  | _ => false end.
Lemma lint_case_spec d : lint_case d = true -> settled d -> exists e w d', good_document d /\ get_elementdata d 0 = Some e /\ bare_layers_plain d /\ spanned_full d 0 /\ end_unspanned d 0 /\ plain_props d dp_default /\
  doc_xml fuel1 rt_oracle d 0 = Ok w /\ metas w <= 1 /\ NoDup (xml_ids (reread 4 w)) /\ doc_from_bytes fuel1 rt_oracle dp_default (write_text 4 w) = Ok d' /\ room d' /\
  has_tag "feat" [("xml:id", "f.1"); ("subset", "number"); ("class", "plural")] w = true.
Proof.
  unfold lint_case. destruct (doc_xml fuel1 rt_oracle d 0) as [w| | |] eqn:W; try discriminate. destruct (doc_from_bytes fuel1 rt_oracle dp_default (write_text 4 w)) as [d'| | |] eqn:L; try discriminate.
  intros P S. repeat match type of P with _ && _ = true => apply andb_prop in P; destruct P as (P & ?) end. destruct (get_elementdata d 0) as [e|] eqn:G; [|discriminate].
  exists e, w, d'. split; [apply resavable_spec; assumption|]. split; [reflexivity|]. split; [apply plain_layerb_spec; assumption|]. split; [apply full_spec; assumption|]. split; [eapply end_unspannedb_spec; eassumption|].
  split; [apply declares_text_spec; assumption|]. split; [reflexivity|]. split; [apply Nat.leb_le; assumption|]. split; [apply PropsLinks.nodupb_spec; assumption|]. split; [exact L|]. split; [apply roomb_spec; assumption|assumption].
Qed.
Lemma settled_case ops (P : document -> bool) : match exec_settled ex_doc ops with Some d => P d | None => false end = true -> exists d, settled d /\ P d = true.
Proof. destruct (exec_settled ex_doc ops) as [d|] eqn:E; [|discriminate]. intros H. exists d. split; [eapply exec_settled_spec; [exact ex_settled|exact E]|exact H]. Qed.
Example C78_nonvacuous : exists d e w d', good_document d /\ get_elementdata d 0 = Some e /\ bare_layers_plain d /\ spanned_full d 0 /\ end_unspanned d 0 /\ plain_props d dp_default /\
  doc_xml fuel1 rt_oracle d 0 = Ok w /\ metas w <= 1 /\ NoDup (xml_ids (reread 4 w)) /\ doc_from_bytes fuel1 rt_oracle dp_default (write_text 4 w) = Ok d' /\ room d' /\
  has_tag "feat" [("xml:id", "f.1"); ("subset", "number"); ("class", "plural")] w = true.
Proof.
  destruct (settled_case two_sets lint_case) as (d & S & P); [vm_compute; reflexivity|]. destruct (lint_case_spec d P S) as (e & w & d' & H). exists d, e, w, d'. exact H.
Qed.

(* ---------------------------------------------------------------- it may stop early *)
(* "The linter reports on every file" is false: a file with an attribute twice makes it panic, and the files after it are
   not looked at. *)
Definition twice_file : string := "<FoLiA xmlns=""http://ilk.uvt.nl/folia"" version=""2.5"" version=""2.5""></FoLiA>".
Definition stops (d : document) : bool :=
  match doc_bytes fuel1 rt_oracle d 0 4 with
  | Ok s => match lint fuel1 rt_oracle [None; Some "nothing"; Some s], lint fuel1 rt_oracle [None; Some twice_file; Some s] with
            | ([Complained _; Complained _; Printed x], Ok tt), ([Complained _], Panic) => String.eqb x s
            | _, _ => false end
  | _ => false end.
Lemma stops_spec d : stops d = true -> exists s x y, doc_bytes fuel1 rt_oracle d 0 4 = Ok s /\ lint fuel1 rt_oracle [None; Some "nothing"; Some s] = ([Complained x; Complained y; Printed s], Ok tt) /\
  exists z, lint fuel1 rt_oracle [None; Some twice_file; Some s] = ([Complained z], Panic).
Proof.
  unfold stops. destruct (doc_bytes fuel1 rt_oracle d 0 4) as [s| | |]; try discriminate. destruct (lint fuel1 rt_oracle [None; Some "nothing"; Some s]) as [l r] eqn:E1. destruct (lint fuel1 rt_oracle [None; Some twice_file; Some s]) as [l2 r2] eqn:E2.
  destruct l as [|[|x] [|[|y] [|[z|] [|]]]]; try discriminate. destruct r as [[]| | |]; try discriminate. destruct l2 as [|[|u] [|]]; try discriminate. destruct r2; try discriminate. intros H. apply String.eqb_eq in H. subst z.
  exists s, x, y. split; [reflexivity|]. split; [exact E1|]. exists u. exact E2.
Qed.
Theorem C78_stops_refuted : exists s x y, doc_bytes fuel1 rt_oracle ex_doc 0 4 = Ok s /\ lint fuel1 rt_oracle [None; Some "nothing"; Some s] = ([Complained x; Complained y; Printed s], Ok tt) /\
  exists z, lint fuel1 rt_oracle [None; Some twice_file; Some s] = ([Complained z], Panic).
Proof. apply stops_spec. vm_compute. reflexivity. Qed.
Print Assumptions C78_stops_refuted.
