(* C74: the bytes of a saved document are read back as what was handed to the writer, whatever characters it has. *)
From Coq Require Import String Ascii List Bool Arith NArith Lia.
From Verif Require Import Base BaseFacts Types TypesFacts SpecTable Attrib AttribFacts Element Store StoreFacts Metadata Document Select DocOps Xml Parser Serialiser History Spec
  FrameFacts InvFacts DocFacts Examples StoreThms InternFacts EncodeFacts PropsEncode LinkFacts TreeFacts ForestFacts SelSpec SelectFacts PropsLinks PropsQuery SerSpec PropsSer ParseSpec ParseFacts PropsParse PropsProv
  NoPanic Returns RoundFacts RoundProv RoundSpec RoundTree PropsRound PropsTree WellSpec LoadOk PropsWell SaveSpec SaveOk PropsSave XmlText XmlTextFacts XmlSpec.
Import ListNotations.
Open Scope string_scope.

(* Reading the bytes of a saved document gives the tags, attribute values, texts and comments handed to the writer. *)
Theorem C74_file_read_back : forall fuel O d root w indent, doc_xml fuel O d root = Ok w -> read_text (write_text indent w) = reread indent w.
Proof. exact read_document. Qed.
Print Assumptions C74_file_read_back.
(* No value can be mistaken for markup: escaped it has no angle bracket or quote, and unescaped it is itself again. *)
Theorem C74_value_hidden : forall s, unescape (escape s) = Some s /\ every (fun a => a <> "<"%char /\ a <> ">"%char /\ a <> "'"%char /\ String a "" <> quote) (escape s).
Proof.
  intros s. split; [apply unescape_escape|]. pose proof (escape_unmarked s) as U. induction (escape s) as [|a r IH]; [exact Logic.I|]. cbn [chars] in U. apply andb_prop in U. destruct U as (A & U).
  destruct (un_not _ A) as (A1 & A2 & A3 & A4). split; [|apply IH, U]. apply Ascii.eqb_neq in A1, A2, A3, A4. repeat split; try assumption. unfold quote. intros E. injection E as E. apply A3. exact E.
Qed.
Print Assumptions C74_value_hidden.
(* Two documents with the same bytes are the same to a reader. *)
Theorem C74_bytes_determine : forall fuel fuel' O O' d d' root root' w w' indent, doc_xml fuel O d root = Ok w -> doc_xml fuel' O' d' root' = Ok w' ->
  write_text indent w = write_text indent w' -> reread indent w = reread indent w'.
Proof. intros * W W' E. rewrite <- (read_document _ _ _ _ _ indent W), <- (read_document _ _ _ _ _ indent W'), E. reflexivity. Qed.
Print Assumptions C74_bytes_determine.
(* Loading the bytes is loading what was handed to the writer; so what is proved about saving and loading (C54, C55, C63 to
   C71) holds of the bytes. *)
Theorem C74_bytes_load : forall fuel fuel' O p d root w indent s, doc_xml fuel O d root = Ok w -> doc_bytes fuel O d root indent = Ok s ->
  doc_from_bytes fuel' O p s = parse_document fuel' O p (reread indent w).
Proof.
  intros * W B. unfold doc_bytes in B. rewrite W in B. cbn [rbind] in B. assert (s = write_text indent w) as -> by congruence. unfold doc_from_bytes. rewrite (read_document _ _ _ _ _ indent W). reflexivity.
Qed.
Print Assumptions C74_bytes_load.
(* In full: saving to bytes and loading them succeeds and gives the same tree. The hypotheses are those of C66. *)
Theorem C74_saved_bytes_load_partial : forall O p d root e lst ids' indent, tidy d -> get_elementdata d root = Some e -> (e_parent e <> None \/ root = 0) ->
  e_type e = ET_Text \/ e_type e = ET_Speech -> e_data e <> [] ->
  writable_doc d -> values_in_range O d -> single_attributes d -> features_placed d -> backward d [e_type e] (own_id e) (e_data e) ids' ->
  listed d (doc_chain d) lst -> NoDup lst -> undated d lst ->
  (N.of_nat (length (st_items (doc_decls d))) <= 32000)%N -> plain_properties p ->
  exists m s d', (forall fuel, m <= fuel -> doc_bytes fuel O d root indent = Ok s /\ doc_from_bytes fuel O p s = Ok d') /\
    exists n, same_tree (same_attributes d d') d d' None root 0 n /\ length (st_items (doc_elements d')) = n.
Proof.
  intros * T G PA BT NE WD VR SA FP BW LS ND UD RD PP.
  destruct (C66_saved_loads_partial O p d root e lst ids' indent T G PA BT NE WD VR SA FP BW LS ND UD RD PP) as (m & w & d' & A & B). exists m, (write_text indent w), d'. split; [|exact B].
  intros fuel F. destruct (A fuel F) as (W & L). split; [unfold doc_bytes; rewrite W; reflexivity|]. unfold doc_from_bytes. rewrite (read_document _ _ _ _ _ indent W). exact L.
Qed.
Print Assumptions C74_saved_bytes_load_partial.

(* A word whose text and whose class are full of markup: the bytes show references, and loading them finds the text. *)
Definition nasty : string := "</w> & <!-- ""x"" 'y' ]]> &amp;".
Fixpoint has_sub (x s : string) : bool := String.prefix x s || match s with "" => false | String _ r => has_sub x r end.
Lemma prefix_app x s : String.prefix x s = true -> exists r, s = x ++ r.
Proof.
  revert s. induction x as [|a x IH]; intros s H; [exists s; reflexivity|]. destruct s as [|b s]; [discriminate|]. cbn [String.prefix] in H. destruct (ascii_dec a b) as [->|]; [|discriminate].
  destruct (IH s H) as (r & ->). exists r. reflexivity.
Qed.
Lemma has_sub_spec x s : has_sub x s = true -> exists before after, s = before ++ x ++ after.
Proof.
  induction s as [|a s IH]; cbn [has_sub]; intros H; apply orb_prop in H; destruct H as [H|H]; try discriminate.
  - apply prefix_app in H. destruct H as (r & ->). exists "", r. reflexivity.
  - apply prefix_app in H. destruct H as (r & ->). exists "", r. reflexivity.
  - destruct (IH H) as (b & r & ->). exists (String a b), r. reflexivity.
Qed.
Definition bytes_case (x : string) (d : document) : bool :=
  match doc_bytes fuel1 rt_oracle d 0 2 with
  | Ok s => has_sub x s && match doc_from_bytes fuel1 rt_oracle no_props s with
                           | Ok d' => existsb (fun o => match o with Some e => existsb (fun c => match c with DText t => String.eqb t nasty | _ => false end) (e_data e) | None => false end) (st_items (doc_elements d'))
                           | _ => false end
  | _ => false
  end.
Lemma bytes_case_spec x d : bytes_case x d = true -> exists s before after d' e, doc_bytes fuel1 rt_oracle d 0 2 = Ok s /\ s = before ++ x ++ after /\ doc_from_bytes fuel1 rt_oracle no_props s = Ok d' /\
  In (Some e) (st_items (doc_elements d')) /\ In (DText nasty) (e_data e).
Proof.
  unfold bytes_case. destruct (doc_bytes fuel1 rt_oracle d 0 2) as [s| | |]; try discriminate. intros H. apply andb_prop in H. destruct H as (S & H). destruct (has_sub_spec _ _ S) as (b & a & E).
  destruct (doc_from_bytes fuel1 rt_oracle no_props s) as [d'| | |] eqn:L; try discriminate. apply existsb_exists in H. destruct H as (o & I1 & H). destruct o as [e|]; [|discriminate].
  apply existsb_exists in H. destruct H as (c & I2 & H). destruct c; try discriminate. apply String.eqb_eq in H. subst. exists (b ++ x ++ a), b, a, d', e. auto 10.
Qed.
Example C74_nonvacuous : exists d s before after d' e, tidy d /\ doc_bytes fuel1 rt_oracle d 0 2 = Ok s /\
  s = before ++ ("<w xml:id=""w.4"" class=""a&lt;b&quot;"" processor=""proc2"">" ++ nl ++ "<t>&lt;/w&gt; &amp; &lt;!-- &quot;x&quot; &#39;y&#39; ]]&gt; &amp;amp;</t>") ++ after /\
  doc_from_bytes fuel1 rt_oracle no_props s = Ok d' /\ In (Some e) (st_items (doc_elements d')) /\ In (DText nasty) (e_data e).
Proof.
  destruct (careful_case [OAddElementTo 10 (mkElem ET_Word [A_Id "w.4"; A_Class "a<b"""] [DAddElement (mkElem ET_TextContent [] [DText nasty] None None)] None None)]
    (bytes_case ("<w xml:id=""w.4"" class=""a&lt;b&quot;"" processor=""proc2"">" ++ nl ++ "<t>&lt;/w&gt; &amp; &lt;!-- &quot;x&quot; &#39;y&#39; ]]&gt; &amp;amp;</t>"))) as (d & T & P); [vm_compute; reflexivity|].
  destruct (bytes_case_spec _ _ P) as (s & before & after & d' & e & A). exists d, s, before, after, d', e. split; [exact T|exact A].
Qed.
