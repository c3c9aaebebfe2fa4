(* Reading back the declarations and the provenance that the serialiser wrote. *)
From Coq Require Import String Ascii List Bool Arith NArith Lia.
From Verif Require Import Base BaseFacts Types TypesFacts SpecTable Attrib AttribFacts Element Store StoreFacts Metadata Document Select DocOps Xml Parser Serialiser History Spec
  FrameFacts InvFacts DocFacts StoreThms Examples EncodeFacts LinkFacts TreeFacts ForestFacts ParseSpec ParseFacts PropsParse PropsProv RoundFacts.
Import ListNotations.
Open Scope string_scope.
Open Scope list_scope.

(* ---------------------------------------------------------------- attributes without duplicates *)
Definition plain_attr (kv : string * string) : option xattr := Some (mkXA (fst kv) (Some (snd kv))).
Lemma read_attrs_plain l : forall seen, NoDup (map fst l) -> (forall k, In k (map fst l) -> ~ In k seen) -> read_attrs seen l = map plain_attr l.
Proof.
  induction l as [|[k v] l IH]; intros seen ND NS; [reflexivity|]. cbn [read_attrs map fst snd]. inversion_clear ND as [|? ? NI ND'].
  replace (existsb (String.eqb k) seen) with false.
  2:{ symmetry. apply not_true_is_false. intros E. apply existsb_exists in E. destruct E as (x & X & E). apply String.eqb_eq in E. subst x. apply (NS k (or_introl eq_refl) X). }
  f_equal. apply IH; [exact ND'|]. intros k' I' [->|J]; [exact (NI I')|]. apply (NS k' (or_intror I') J).
Qed.
Lemma NoDup_sub {A} (l l' : list A) : NoDup l' -> (exists f, l = filter f l') -> NoDup l.
Proof. intros H (f & ->). apply NoDup_filter, H. Qed.

(* ---------------------------------------------------------------- the attributes of a processor *)
Lemma digit_not_dollar n : Ascii.eqb (digit n) "$" = false.
Proof.
  unfold digit. assert (H : (n mod 10 < 10)%N) by (apply N.mod_lt; discriminate). set (m := (n mod 10)%N) in *. clearbody m.
  assert (C : In m [0;1;2;3;4;5;6;7;8;9]%N). { cbn. lia. } cbn in C. decompose [or] C; subst; try contradiction; reflexivity.
Qed.
Lemma digit_ok n : exists v, digit_val (digit n) = Some v.
Proof.
  unfold digit. assert (H : (n mod 10 < 10)%N) by (apply N.mod_lt; discriminate). set (m := (n mod 10)%N) in *. clearbody m.
  assert (C : In m [0;1;2;3;4;5;6;7;8;9]%N). { cbn. lia. } cbn in C. decompose [or] C; subst; try contradiction; vm_compute; eauto.
Qed.
Lemma read_pad2 n acc s : exists v, read_digits 2 acc (pad2 n ++ s)%string = Some (v, s).
Proof. unfold pad2. cbn [append read_digits]. destruct (digit_ok (n / 10)) as (a & ->). destruct (digit_ok n) as (b & ->). eauto. Qed.
Lemma read_pad4 n acc s : exists v, read_digits 4 acc (pad4 n ++ s)%string = Some (v, s).
Proof. unfold pad4, pad2. cbn [append read_digits]. destruct (digit_ok (n / 100 / 10)) as (a & ->). destruct (digit_ok (n / 100)) as (b & ->). destruct (digit_ok (n / 10)) as (c & ->). destruct (digit_ok n) as (e & ->). eauto. Qed.
(* the reader expects a date and time to end in the characters $S, which the writer never writes *)
Lemma read_sep c x : read_char c (String c x) = Some x.
Proof. unfold read_char. rewrite Ascii.eqb_refl. reflexivity. Qed.
Lemma typo_rejects dt : dt_parse_typo (dt_print dt) = None.
Proof.
  unfold dt_parse_typo, dt_print. cbn [append].
  match goal with |- context [read_digits 4 0 (?a ++ ?b)%string] => destruct (read_pad4 (dt_year dt) 0 b) as (v1 & ->) end. cbn [obind]. rewrite read_sep. cbn [obind].
  match goal with |- context [read_digits 2 0 (?a ++ ?b)%string] => destruct (read_pad2 (dt_month dt) 0 b) as (v2 & ->) end. cbn [obind]. rewrite read_sep. cbn [obind].
  match goal with |- context [read_digits 2 0 (?a ++ ?b)%string] => destruct (read_pad2 (dt_day dt) 0 b) as (v3 & ->) end. cbn [obind]. rewrite read_sep. cbn [obind].
  match goal with |- context [read_digits 2 0 (?a ++ ?b)%string] => destruct (read_pad2 (dt_hour dt) 0 b) as (v4 & ->) end. cbn [obind]. rewrite read_sep. cbn [obind].
  match goal with |- context [read_digits 2 0 (?a ++ ?b)%string] => destruct (read_pad2 (dt_min dt) 0 b) as (v5 & ->) end. cbn [obind]. rewrite read_sep. cbn [obind].
  unfold pad2. cbn [read_char]. rewrite digit_not_dollar. reflexivity.
Qed.
(* a new processor with the values of p and new subprocessors l *)
Definition copy_of (p : processor) (l : list processor) : processor :=
  mkProc (pr_id p) (pr_name p) (pr_type p) (pr_version p) (pr_folia_version p) (pr_document_version p) (pr_command p) (pr_host p) (pr_user p)
    None None [] (pr_src p) (pr_format p) (pr_resourcelink p) None meta_default None l.
Lemma parse_proc_app l1 : forall p l2, parse_proc_attrs p (l1 ++ l2) = (let? q := parse_proc_attrs p l1 in parse_proc_attrs q l2).
Proof.
  induction l1 as [|[a|] l1 IH]; intros p l2; cbn [app parse_proc_attrs rbind]; [reflexivity| |apply IH].
  destruct (expect (xa_val a)) as [v|e| |]; cbn [rbind]; try reflexivity. destruct (proc_attr p (xa_key a) v) as [q|e| |]; cbn [rbind]; try reflexivity. apply IH.
Qed.
Definition names_ok (l : list (string * string)) (big : list string) : Prop := NoDup (map fst l) /\ incl (map fst l) big.
Lemma names_opt k o l big : (o = [] \/ exists v, o = [(k, v)]) -> ~ In k big -> names_ok l big -> names_ok (o ++ l) (k :: big).
Proof.
  intros C N (ND & IN). destruct C as [->|(v & ->)]; cbn [app].
  - split; [exact ND|]. intros x X. right. apply IN, X.
  - split; cbn [map fst]; [constructor; [|exact ND]; intros X; apply N, IN, X|]. intros x [->|X]; [left; reflexivity|right; apply IN, X].
Qed.
Lemma sattr_opt k v : sattr k v = [] \/ exists x, sattr k v = [(k, x)].
Proof. unfold sattr. destruct (str_is_empty v); eauto. Qed.
Lemma oattr_opt k v : oattr k v = [] \/ exists x, oattr k v = [(k, x)].
Proof. unfold oattr. destruct v; eauto. Qed.
Lemma names_nil : names_ok [] [].
Proof. split; [constructor|]. intros x []. Qed.
Lemma proc_attrs_nodup p : NoDup (map fst (proc_attrs p)).
Proof.
  assert (H : exists big, names_ok (proc_attrs p) big); [|destruct H as (big & H & _); exact H]. unfold proc_attrs. cbn [app].
  eexists. apply (names_opt "xml:id" [_]); [eauto| |]. 2: apply (names_opt "name" [_]); [eauto| |]. 3: apply (names_opt "type" [_]); [eauto| |].
  4: repeat (apply names_opt; [apply sattr_opt || apply oattr_opt| |]). all: try (rewrite <- (app_nil_r (sattr "resourcelink" _)); apply names_opt; [apply sattr_opt| |apply names_nil]).
  all: cbn; intuition discriminate.
Qed.
Definition proc_step (k v : string) (p : processor) : res processor := parse_proc_attrs p (map plain_attr (sattr k v)).
Lemma parse_copy p q : parse_processor (read_attrs [] (proc_attrs p)) = Ok q -> q = copy_of p [] /\ pr_begin p = None /\ pr_end p = None.
Proof.
  rewrite read_attrs_plain by (auto using proc_attrs_nodup). unfold parse_processor, proc_attrs. rewrite !map_app, !parse_proc_app. intros H.
  set (p0 := pr_default) in H.
  assert (E1 : parse_proc_attrs p0 (map plain_attr [("xml:id", pr_id p); ("name", pr_name p); ("type", pt_as_str (pr_type p))]) = Ok (mkProc (pr_id p) (pr_name p) (pr_type p) "" "" "" "" "" "" None None [] "" "" "" None meta_default None [])).
  { destruct (pr_type p); reflexivity. }
  rewrite E1 in H. cbn [rbind] in H. clear E1 p0.
  repeat (rewrite parse_proc_app in H).
  assert (SV : forall id n t v, parse_proc_attrs (mkProc id n t "" "" "" "" "" "" None None [] "" "" "" None meta_default None []) (map plain_attr (sattr "version" v)) = Ok (mkProc id n t v "" "" "" "" "" None None [] "" "" "" None meta_default None [])) by (intros ? ? ? []; reflexivity).
  rewrite SV in H. cbn [rbind] in H. rewrite parse_proc_app in H. 
  assert (S2 : forall id n t v0 v, parse_proc_attrs (mkProc id n t v0 "" "" "" "" "" None None [] "" "" "" None meta_default None []) (map plain_attr (sattr "folia_version" v)) = Ok (mkProc id n t v0 v "" "" "" "" None None [] "" "" "" None meta_default None [])) by (intros ? ? ? ? []; reflexivity).
  rewrite S2 in H. cbn [rbind] in H. rewrite parse_proc_app in H.
  assert (S3 : forall id n t v0 v1 v, parse_proc_attrs (mkProc id n t v0 v1 "" "" "" "" None None [] "" "" "" None meta_default None []) (map plain_attr (sattr "document_version" v)) = Ok (mkProc id n t v0 v1 v "" "" "" None None [] "" "" "" None meta_default None [])) by (intros ? ? ? ? ? []; reflexivity).
  rewrite S3 in H. cbn [rbind] in H. rewrite parse_proc_app in H.
  assert (S4 : forall id n t v0 v1 v2 v, parse_proc_attrs (mkProc id n t v0 v1 v2 "" "" "" None None [] "" "" "" None meta_default None []) (map plain_attr (sattr "command" v)) = Ok (mkProc id n t v0 v1 v2 v "" "" None None [] "" "" "" None meta_default None [])) by (intros ? ? ? ? ? ? []; reflexivity).
  rewrite S4 in H. cbn [rbind] in H. rewrite parse_proc_app in H.
  assert (S5 : forall id n t v0 v1 v2 v3 v, parse_proc_attrs (mkProc id n t v0 v1 v2 v3 "" "" None None [] "" "" "" None meta_default None []) (map plain_attr (sattr "host" v)) = Ok (mkProc id n t v0 v1 v2 v3 v "" None None [] "" "" "" None meta_default None [])) by (intros ? ? ? ? ? ? ? []; reflexivity).
  rewrite S5 in H. cbn [rbind] in H. rewrite parse_proc_app in H.
  assert (S6 : forall id n t v0 v1 v2 v3 v4 v, parse_proc_attrs (mkProc id n t v0 v1 v2 v3 v4 "" None None [] "" "" "" None meta_default None []) (map plain_attr (sattr "user" v)) = Ok (mkProc id n t v0 v1 v2 v3 v4 v None None [] "" "" "" None meta_default None [])) by (intros ? ? ? ? ? ? ? ? []; reflexivity).
  rewrite S6 in H. cbn [rbind] in H. rewrite parse_proc_app in H.
  assert (TY : forall q k dt, (k = "begindatetime" \/ k = "enddatetime") -> parse_proc_attrs q (map plain_attr (oattr k (Some (dt_print dt)))) = Err EParse).
  { intros q0 k dt K. cbn [oattr map plain_attr fst snd parse_proc_attrs xa_val xa_key expect rbind]. destruct q0. unfold proc_attr. destruct K as [-> | ->]; cbn [String.eqb Ascii.eqb Bool.eqb]; rewrite typo_rejects; reflexivity. }
  destruct (pr_begin p) as [dt|]; cbn [option_map] in H; [rewrite TY in H by auto; discriminate|]. cbn [oattr map parse_proc_attrs rbind] in H. rewrite parse_proc_app in H.
  destruct (pr_end p) as [dt|]; cbn [option_map] in H; [rewrite TY in H by auto; discriminate|]. cbn [oattr map parse_proc_attrs rbind] in H. rewrite parse_proc_app in H.
  assert (S7 : forall id n t v0 v1 v2 v3 v4 v5 v, parse_proc_attrs (mkProc id n t v0 v1 v2 v3 v4 v5 None None [] "" "" "" None meta_default None []) (map plain_attr (sattr "src" v)) = Ok (mkProc id n t v0 v1 v2 v3 v4 v5 None None [] v "" "" None meta_default None [])) by (intros ? ? ? ? ? ? ? ? ? []; reflexivity).
  rewrite S7 in H. cbn [rbind] in H. rewrite parse_proc_app in H.
  assert (S8 : forall id n t v0 v1 v2 v3 v4 v5 s v, parse_proc_attrs (mkProc id n t v0 v1 v2 v3 v4 v5 None None [] s "" "" None meta_default None []) (map plain_attr (sattr "format" v)) = Ok (mkProc id n t v0 v1 v2 v3 v4 v5 None None [] s v "" None meta_default None [])) by (intros ? ? ? ? ? ? ? ? ? ? []; reflexivity).
  rewrite S8 in H. cbn [rbind] in H.
  assert (S9 : forall id n t v0 v1 v2 v3 v4 v5 s f v, parse_proc_attrs (mkProc id n t v0 v1 v2 v3 v4 v5 None None [] s f "" None meta_default None []) (map plain_attr (sattr "resourcelink" v)) = Ok (mkProc id n t v0 v1 v2 v3 v4 v5 None None [] s f v None meta_default None [])) by (intros ? ? ? ? ? ? ? ? ? ? ? []; reflexivity).
  rewrite S9 in H. injection H as <-. auto.
Qed.

(* ---------------------------------------------------------------- the hierarchy of processors *)
(* [listed d ks l]: the processors ks, each followed by the processors below it, are l *)
Inductive listed (d : document) : list nat -> list nat -> Prop :=
  | listed_nil : listed d [] []
  | listed_cons k ks p l1 l2 : get_processor d k = Some p -> listed d (pr_processors p) l1 -> listed d ks l2 -> listed d (k :: ks) (k :: l1 ++ l2).
Inductive value_of (d : document) : nat -> processor -> Prop :=
  | value_intro k p l : get_processor d k = Some p -> pr_begin p = None -> pr_end p = None -> Forall2 (value_of d) (pr_processors p) l -> value_of d k (copy_of p l).
Fixpoint add_processors (d : document) (l : list processor) : document * res unit :=
  match l with [] => (d, Ok tt) | v :: r => let! d', _ := add_processor d v in add_processors d' r end.
Definition add_one (d : document) (st : list nat) (v : processor) : document * res nat := match st with [] => add_processor d v | top :: _ => add_subprocessor d top v end.
Definition add_all (d : document) (st : list nat) (l : list processor) : document * res unit := match st with [] => add_processors d l | top :: _ => add_subprocessors d top l end.
Lemma add_all_cons d st v l d1 k d2 : add_one d st v = (d1, Ok k) -> add_all d1 st l = (d2, Ok tt) -> add_all d st (v :: l) = (d2, Ok tt).
Proof. destruct st as [|top st]; cbn [add_one add_all add_processors add_subprocessors]; intros ->; cbn [sbind]; auto. Qed.
Lemma add_one_nested d st p l d1 k d2 : add_one d st (copy_of p []) = (d1, Ok k) -> add_all d1 (k :: st) l = (d2, Ok tt) -> add_one d st (copy_of p l) = (d2, Ok k).
Proof.
  destruct st as [|top st]; cbn [add_one add_all]; intros A B.
  - unfold add_processor in *. change (pr_with_pending [] (copy_of p l)) with (copy_of p []). change (pr_with_pending [] (copy_of p [])) with (copy_of p []) in A.
    destruct (add_provenance d (copy_of p [])) as [d0 [c|e| |]]; try discriminate. cbn [sbind copy_of pr_pending add_subprocessors] in *. injection A as <- <-. rewrite B. reflexivity.
  - rewrite add_subprocessor_eq in *. change (pr_with_pending [] (copy_of p l)) with (copy_of p []). change (pr_with_pending [] (copy_of p [])) with (copy_of p []) in A.
    destruct (add_provenance d (copy_of p [])) as [d0 [c|e| |]]; try discriminate. cbn [sbind] in *. destruct (attach_processor d0 top c) as [d3 [u|e| |]]; try discriminate. cbn [sbind copy_of pr_pending add_subprocessors] in *.
    injection A as <- <-. rewrite B. reflexivity.
Qed.
Section Prov.
Variable i : nat.
Definition with_procs (s : mstate) (l : list nat) : mstate :=
  mkMS (ms_decls s) (ms_prov s) (ms_sub s) (ms_subtype s) (ms_text s) (ms_meta s) (ms_dk s) (ms_annotators s) l.
Lemma parsed_add d st p d1 k : add_parsed_processor d st p = (d1, Ok k) -> add_one d st p = (d1, Ok k).
Proof. unfold add_parsed_processor. intros H. apply map_err_ok in H. exact H. Qed.
Lemma processor_start d s a d1 s1 : ms_prov s = true -> meta_start d s NsFolia "processor" a = (d1, Ok s1) ->
  exists p k, parse_processor a = Ok p /\ add_one d (ms_procs s) p = (d1, Ok k) /\ s1 = with_procs s (k :: ms_procs s).
Proof.
  intros PR H. unfold meta_start in H. cbn [String.eqb Ascii.eqb Bool.eqb] in H. rewrite PR in H. cbn [andb] in H. apply sbind_ok in H. destruct H as (d2 & p & E & H). injection E as <- E. apply parse_err_ok in E.
  apply sbind_ok in H. destruct H as (d3 & k & A & H). injection H as <- <-. exists p, k. split; [exact E|]. split; [apply parsed_add, A|]. unfold with_procs. rewrite PR. reflexivity.
Qed.
Lemma processor_empty d s a d1 s1 : ms_prov s = true -> meta_empty d s NsFolia "processor" a = (d1, Ok s1) ->
  exists p k, parse_processor a = Ok p /\ add_one d (ms_procs s) p = (d1, Ok k) /\ s1 = s.
Proof.
  intros PR H. unfold meta_empty in H. cbn [String.eqb Ascii.eqb Bool.eqb] in H. rewrite PR in H. cbn [andb] in H. apply sbind_ok in H. destruct H as (d2 & p & E & H). injection E as <- E. apply parse_err_ok in E.
  apply sbind_ok in H. destruct H as (d3 & k & A & H). injection H as <- <-. exists p, k. split; [exact E|]. split; [apply parsed_add, A|reflexivity].
Qed.
Lemma processor_end d s : ms_prov s = true -> meta_end d s NsFolia "processor" = (d, Some (with_procs s (tl (ms_procs s)))).
Proof. intros PR. unfold meta_end, with_procs. cbn [String.eqb Ascii.eqb Bool.eqb]. rewrite PR. reflexivity. Qed.
Lemma with_procs_same s : with_procs s (ms_procs s) = s.
Proof. destruct s; reflexivity. Qed.
Lemma w_processor_some fuel d k p : get_processor d k = Some p -> w_processor (S fuel) d k =
  match pr_processors p with
  | [] => Ok [WEmpty "processor" (proc_attrs p); wnl]
  | subs => let? x := w_each (w_processor fuel d) subs in Ok (WStart "processor" (proc_attrs p) :: x ++ [WEnd "processor"; wnl])
  end.
Proof. intros G. cbn [w_processor]. rewrite G. reflexivity. Qed.
Lemma procs_read d fuel : forall ks lst x, listed d ks lst -> w_each (w_processor fuel d) ks = Ok x -> forall d1 s l D R, ms_prov s = true -> reading i d1 s (x ++ l) D R ->
  exists vs d2, Forall2 (value_of d) ks vs /\ add_all d1 (ms_procs s) vs = (d2, Ok tt) /\ reading i d2 s l D R.
Proof.
  induction fuel as [|fuel IHF]; intros ks lst x LS.
  - destruct LS; cbn; [intros H; injection H as <-|discriminate]. intros d1 s l D R PR H. exists [], d1. split; [constructor|]. split; [destruct (ms_procs s); reflexivity|exact H].
  - revert x. induction LS as [|k ks p l1 l2 G L1 _ L2 IH2]; intros x.
    + cbn. intros H; injection H as <-. intros d1 s l D R PR H. exists [], d1. split; [constructor|]. split; [destruct (ms_procs s); reflexivity|exact H].
    + cbn [w_each]. rewrite (w_processor_some _ _ _ _ G). intros W. apply rbind_ok in W. destruct W as (x1 & W1 & W). apply rbind_ok in W. destruct W as (x2 & W2 & W). injection W as <-.
      intros d1 s l D R PR H. rewrite <- app_assoc in H.
      assert (K : exists v d2 k', value_of d k v /\ add_one d1 (ms_procs s) v = (d2, Ok k') /\ reading i d2 s (x2 ++ l) D R).
      { destruct (pr_processors p) as [|c cs] eqn:PP.
        - injection W1 as <-. cbn [app] in H. apply reading_empty in H. destruct H as (t & d2 & s2 & M & H). destruct (processor_empty _ _ _ _ _ (PR : ms_prov (put_text s t) = true) M) as (q & k' & E & A & ->). destruct (parse_copy _ _ E) as (-> & B & C).
          exists (copy_of p []), d2, k'. split; [econstructor; eauto; rewrite PP; constructor|]. split; [exact A|]. apply reading_text in H. eapply reading_text_any, H.
        - apply rbind_ok in W1. destruct W1 as (y & Y & W1). injection W1 as <-. cbn [app] in H. apply reading_start in H. destruct H as (t & d2 & s2 & M & H). destruct (processor_start _ _ _ _ _ (PR : ms_prov (put_text s t) = true) M) as (q & k' & E & A & ->).
          destruct (parse_copy _ _ E) as (-> & B & C). rewrite <- app_assoc in H.
          destruct (IHF _ _ _ L1 Y _ _ _ _ _ (PR : ms_prov (with_procs (put_text s t) _) = true) H) as (vs & d3 & F & AD & H3). cbn [app] in H3. apply reading_end in H3. destruct H3 as (u & H3).
          rewrite processor_end in H3 by exact PR. apply reading_text in H3. cbn [with_procs put_text ms_procs tl] in AD, H3.
          exists (copy_of p vs), d3, k'. split; [econstructor; eauto; rewrite PP; exact F|]. split; [eapply add_one_nested; eassumption|].
          eapply reading_text_any. exact H3. }
      destruct K as (v & d2 & k' & V & A & H2). destruct (IH2 x2 W2 _ _ _ _ _ PR H2) as (vs & d3 & F & AD & H3). exists (v :: vs), d3. split; [constructor; assumption|]. split; [eapply add_all_cons; eassumption|exact H3].
Qed.
End Prov.

(* ---------------------------------------------------------------- the processors added for the chain *)
Fixpoint made_from_ind2 (d : document) (P : option nat -> nat -> processor -> Prop)
  (H : forall par k p q, get_processor d k = Some q -> get_processor_key_by_id d (pr_id p) = Some k -> describes q p -> pr_key q = Some k -> pr_parent q = par ->
      Forall2 (made_from d (Some k)) (pr_processors q) (pr_pending p) -> Forall2 (P (Some k)) (pr_processors q) (pr_pending p) -> P par k p)
  par k p (M : made_from d par k p) {struct M} : P par k p :=
  match M with
  | made_proc _ par k p q G IX D K PA F =>
      H par k p q G IX D K PA F
        ((fix go l1 l2 (F : Forall2 (made_from d (Some k)) l1 l2) : Forall2 (P (Some k)) l1 l2 :=
            match F with
            | Forall2_nil _ => Forall2_nil _
            | Forall2_cons a b x r => Forall2_cons a b (made_from_ind2 d P H (Some k) a b x) (go _ _ r)
            end) _ _ F)
  end.
Lemma made_from_kept d d' par k p : (forall j q, get_processor d j = Some q -> get_processor d' j = Some q) -> (forall id j, get_processor_key_by_id d id = Some j -> get_processor_key_by_id d' id = Some j) ->
  made_from d par k p -> made_from d' par k p.
Proof. intros A B M. induction M as [par k p q G IX DE K PA _ F] using made_from_ind2. econstructor; eauto. Qed.
Definition only_prov (d d' : document) : Prop := d' = doc_with_chain (doc_with_procs d (doc_procs d')) (doc_chain d').
Lemma chain_added vs : forall d d2, (forall v, In v vs -> brand_new v) -> NoDup (flat_map proc_ids vs) -> unused d (flat_map proc_ids vs) -> add_processors d vs = (d2, Ok tt) ->
  exists ks, doc_chain d2 = doc_chain d ++ ks /\ Forall2 (made_from d2 None) ks vs /\ (forall j q, get_processor d j = Some q -> get_processor d2 j = Some q) /\
    (forall id j, get_processor_key_by_id d id = Some j -> get_processor_key_by_id d2 id = Some j) /\ only_prov d d2.
Proof.
  induction vs as [|v vs IH]; intros d d2 BN ND UN; cbn [add_processors flat_map] in *.
  - intros H. injection H as <-. exists []. rewrite app_nil_r. split; [reflexivity|]. split; [constructor|]. split; [auto|]. split; [auto|]. destruct d; reflexivity.
  - apply NoDup_app_inv in ND. destruct ND as (ND1 & ND2 & ND3). intros H. apply sbind_ok in H. destruct H as (d1 & k & A & H).
    destruct (C59_add_processor_partial d v (BN v (or_introl eq_refl)) ND1) as (_ & R); [intros id I'; apply UN, in_or_app; auto|]. destruct (R _ _ A) as (CH & M & G & IX & NEW & _ & OP). clear R.
    destruct (IH d1 d2 (fun x i => BN x (or_intror i)) ND2) as (ks & CH2 & F & G2 & IX2 & OP2); [|exact H|].
    + intros id I'. destruct (get_processor_key_by_id d1 id) eqn:Q; [|reflexivity]. exfalso. destruct (NEW id) as [X|X]; [congruence|apply X, UN, in_or_app; auto|apply (ND3 id X I')].
    + exists (k :: ks). split; [rewrite CH2, CH, <- app_assoc; reflexivity|]. split; [constructor; [eapply made_from_kept; eassumption|exact F]|]. split; [auto|]. split; [auto|].
      unfold only_prov in *. rewrite OP2, OP. reflexivity.
Qed.

(* what the processor with key k is called *)
Definition pid (d : document) (k : nat) : string := match get_processor d k with Some p => pr_id p | None => "" end.
Lemma value_inv d k v : value_of d k v -> exists p l, get_processor d k = Some p /\ v = copy_of p l /\ pr_begin p = None /\ pr_end p = None /\ Forall2 (value_of d) (pr_processors p) l.
Proof. intros [k0 p l G B E F]. eauto 10. Qed.
Lemma listed_undated d ks l : listed d ks l -> forall vs, Forall2 (value_of d) ks vs -> forall k q, In k l -> get_processor d k = Some q -> pr_begin q = None /\ pr_end q = None.
Proof.
  induction 1 as [|k ks p l1 l2 G L1 IH1 L2 IH2]; intros vs F j q J Q; [destruct J|]. inversion F as [|? v ? vs' V F']; subst.
  destruct (value_inv _ _ _ V) as (p' & lv & G' & -> & B & E & FV). rewrite G in G'. injection G' as <-. destruct J as [<-|J]; [rewrite G in Q; injection Q as <-; auto|]. apply in_app_or in J. destruct J; eauto.
Qed.
Lemma listed_values d ks l : listed d ks l -> forall vs, Forall2 (value_of d) ks vs -> flat_map proc_ids vs = map (pid d) l /\ forall v, In v vs -> brand_new v.
Proof.
  induction 1 as [|k ks p l1 l2 G L1 IH1 L2 IH2]; intros vs F; inversion F as [|? v ? vs' V F']; subst; [split; [reflexivity|intros v []]|].
  destruct (value_inv _ _ _ V) as (p' & lv & G' & -> & _ & _ & FV). rewrite G in G'. injection G' as <-. destruct (IH1 _ FV) as (E1 & B1). destruct (IH2 _ F') as (E2 & B2). split.
  - cbn [flat_map]. rewrite ids_eq. cbn [copy_of pr_id pr_pending]. rewrite E1, E2. cbn [map app]. rewrite map_app. unfold pid at 3. rewrite G. reflexivity.
  - intros v [<-|I']; [|apply B2, I']. constructor; [split; reflexivity|]. intros c C. apply B1, C.
Qed.

(* ---------------------------------------------------------------- the same processors *)
Record same_values (p q : processor) : Prop := {
  sv_id : pr_id q = pr_id p; sv_name : pr_name q = pr_name p; sv_type : pr_type q = pr_type p; sv_version : pr_version q = pr_version p;
  sv_folia_version : pr_folia_version q = pr_folia_version p; sv_document_version : pr_document_version q = pr_document_version p;
  sv_command : pr_command q = pr_command p; sv_host : pr_host q = pr_host p; sv_user : pr_user q = pr_user p;
  sv_begin : pr_begin q = pr_begin p; sv_end : pr_end q = pr_end p; sv_src : pr_src q = pr_src p; sv_format : pr_format q = pr_format p;
  sv_resourcelink : pr_resourcelink q = pr_resourcelink p }.
(* processor k of d and processor k' of d' have the same values, and so have, in order, the processors below them;
   in d' the processor k' records par as its parent and is found under its ID *)
Inductive same_processor (d d' : document) : option nat -> nat -> nat -> Prop :=
  | same_proc par k k' p q : get_processor d k = Some p -> get_processor d' k' = Some q -> same_values p q -> pr_parent q = par ->
      get_processor_key_by_id d' (pr_id p) = Some k' ->
      Forall2 (same_processor d d' (Some k')) (pr_processors p) (pr_processors q) -> same_processor d d' par k k'.
Lemma same_kept d d3 d5 : doc_procs d5 = doc_procs d3 -> forall par a b, same_processor d d3 par a b -> same_processor d d5 par a b.
Proof.
  intros P5. assert (G : forall k, get_processor d5 k = get_processor d3 k) by (intros; unfold get_processor; rewrite P5; reflexivity).
  assert (X : forall id, get_processor_key_by_id d5 id = get_processor_key_by_id d3 id) by (intros; unfold get_processor_key_by_id; rewrite P5; reflexivity).
  fix go 4. intros par a b [par' k k' p q G1 G2 SV PA IX F]. apply (same_proc d d5 par' k k' p q); [exact G1|rewrite G; exact G2|exact SV|exact PA|rewrite X; exact IX|].
  clear - go F. induction F as [|x y xs ys XY F IH]; constructor; [apply go, XY|exact IH].
Qed.
Lemma made_same d d' ks l : listed d ks l -> forall vs par ks', Forall2 (value_of d) ks vs -> Forall2 (made_from d' par) ks' vs ->
  Forall2 (same_processor d d' par) ks ks' /\ forall k, In k l -> exists par k', same_processor d d' par k k'.
Proof.
  induction 1 as [|k ks p l1 l2 G L1 IH1 L2 IH2]; intros vs par ks' F M; inversion F as [|? v ? vs' V F']; subst; inversion M as [|k' ? ks'' ? MV M']; subst; [split; [constructor|intros k []]|].
  destruct (value_inv _ _ _ V) as (p' & lv & G' & -> & B & E & FV). rewrite G in G'. injection G' as <-. destruct (IH2 _ _ _ F' M') as (S2 & A2).
  inversion MV as [? ? ? q GQ IX DE K PA MF]; subst. cbn [copy_of pr_pending pr_id] in *. destruct (IH1 _ _ _ FV MF) as (S1 & A1).
  assert (SP : same_processor d d' (pr_parent q) k k').
  { econstructor; [exact G|exact GQ| |reflexivity|exact IX|exact S1]. destruct DE; split; cbn in *; congruence. }
  split; [constructor; assumption|]. intros j [<-|J]; [eauto|]. apply in_app_or in J. destruct J; auto.
Qed.

(* ---------------------------------------------------------------- declarations *)
Definition copy_decl (n : nat) (x : declaration) : declaration := mkDecl (Some n) (d_type x) (d_set x) (d_alias x) (d_format x) [] None None None.
Fixpoint copies (n : nat) (l : list (option declaration)) : list (option declaration) :=
  match l with [] => [] | Some x :: r => Some (copy_decl n x) :: copies (S n) r | None :: r => copies n r end.
Fixpoint annotations (d : document) (n : nat) (l : list (option declaration)) : list (nat * string) :=
  match l with [] => [] | Some x :: r => map (fun k => (n, pid d k)) (d_processors x) ++ annotations d (S n) r | None :: r => annotations d n r end.
Definition dec_id (x : declaration) : string := index_id (d_type x) (d_set x).
Fixpoint dec_ids (l : list (option declaration)) : list string :=
  match l with [] => [] | Some x :: r => dec_id x :: dec_ids r | None :: r => dec_ids r end.
Definition with_annotators (s : mstate) (l : list (nat * string)) (dk : option nat) : mstate :=
  mkMS (ms_decls s) (ms_prov s) (ms_sub s) (ms_subtype s) (ms_text s) (ms_meta s) dk l (ms_procs s).
Lemma declaration_type_read t : get_declaration_type (at_as_str t ++ "-annotation") = Ok t.
Proof. destruct t; reflexivity. Qed.
Lemma declaration_read x : parse_declaration (at_as_str (d_type x) ++ "-annotation") (read_attrs [] (oattr "set" (d_set x) ++ oattr "alias" (d_alias x) ++ oattr "format" (d_format x))) = Ok (d_new (d_type x) (d_set x) (d_alias x) (d_format x)).
Proof. unfold parse_declaration. rewrite declaration_type_read. cbn [rbind]. destruct (d_set x), (d_alias x), (d_format x); reflexivity. Qed.
Lemma annotation_name t : let n := (at_as_str t ++ "-annotation")%string in
  String.eqb n "metadata" = false /\ String.eqb n "annotations" = false /\ String.eqb n "provenance" = false /\ String.eqb n "submetadata" = false /\ String.eqb n "meta" = false /\ String.eqb n "processor" = false /\ String.eqb n "annotator" = false.
Proof. destruct t; repeat split; reflexivity. Qed.
Lemma new_declaration d x d1 k : get_declaration_key_by_id d (dec_id x) = None -> add_declaration d x = (d1, Ok k) ->
  k = length (st_items (doc_decls d)) /\ d1 = doc_with_decls d (doc_decls d1) /\ st_items (doc_decls d1) = st_items (doc_decls d) ++ [Some (d_assign_key k x)] /\
  forall id, get_declaration_key_by_id d1 id = if String.eqb id (dec_id x) then Some k else get_declaration_key_by_id d id.
Proof.
  intros N. unfold add_declaration, st_add, st_get_key, d_maybe_id. unfold get_declaration_key_by_id, st_id_to_key, dec_id in N. rewrite N. destruct (_ <=? _)%N; [|discriminate]. intros H. injection H as <- <-.
  split; [reflexivity|]. split; [destruct d; reflexivity|]. split; [reflexivity|]. intros id. unfold get_declaration_key_by_id, st_id_to_key. cbn. apply smap_get_insert.
Qed.
Section Decls.
Variable i : nat.
Lemma annotators_read d ps : forall x, w_annotators d ps = Ok x -> forall d1 s n l D R, ms_decls s = true -> ms_dk s = Some n -> reading i d1 s (x ++ l) D R ->
  reading i d1 (with_annotators s (ms_annotators s ++ map (fun k => (n, pid d k)) ps) (Some n)) l D R.
Proof.
  induction ps as [|k ps IH]; cbn [w_annotators]; intros x W d1 s n l D R DE DK H.
  - injection W as <-. cbn [app map] in *. rewrite app_nil_r. unfold with_annotators. rewrite <- DK. destruct s; exact H.
  - destruct (get_processor d k) as [p|] eqn:G; [|discriminate]. apply rbind_ok in W. destruct W as (y & Y & W). injection W as <-. cbn [app] in H. apply reading_empty in H. destruct H as (t & d2 & s2 & M & H).
    unfold meta_empty in M. cbn [String.eqb Ascii.eqb Bool.eqb andb put_text ms_decls] in M. rewrite DE in M. cbn in M. rewrite DK in M. injection M as <- <-.
    match type of H with reading i d1 ?s2 _ _ _ => assert (Q := IH y Y d1 s2 n l D R eq_refl eq_refl H) end. cbn [ms_annotators with_annotators ms_decls ms_prov ms_sub ms_subtype ms_text ms_meta ms_dk ms_procs] in Q.
    rewrite <- app_assoc in Q. cbn [app map]. unfold pid at 1. rewrite G. unfold with_annotators. rewrite DE. eapply reading_text_any. exact Q.
Qed.
Lemma declarations_read d items : forall x, w_declaration_list d items = Ok x -> (forall dec, In (Some dec) items -> d_processors dec <> []) -> NoDup (dec_ids items) ->
  forall d1 s l D R, ms_decls s = true -> (forall id, In id (dec_ids items) -> get_declaration_key_by_id d1 id = None) -> reading i d1 s (x ++ l) D R ->
  exists d2 dk, d2 = doc_with_decls d1 (doc_decls d2) /\ st_items (doc_decls d2) = st_items (doc_decls d1) ++ copies (length (st_items (doc_decls d1))) items /\
    reading i d2 (with_annotators s (ms_annotators s ++ annotations d (length (st_items (doc_decls d1))) items) dk) l D R.
Proof.
  induction items as [|[x|] items IH]; cbn [w_declaration_list dec_ids]; intros w W HP ND d1 s l D R DE UN H.
  - injection W as <-. exists d1, (ms_dk s). split; [destruct d1; reflexivity|]. split; [cbn; rewrite app_nil_r; reflexivity|]. cbn [annotations]. rewrite app_nil_r. destruct s; exact H.
  - apply rbind_ok in W. destruct W as (w1 & W1 & W). apply rbind_ok in W. destruct W as (w2 & W2 & W). injection W as <-. rewrite <- app_assoc in H. inversion_clear ND as [|? ? NI ND'].
    unfold w_declaration in W1. destruct (d_processors x) as [|k ks] eqn:PX; [exfalso; apply (HP x (or_introl eq_refl) PX)|]. rewrite <- PX in W1. apply rbind_ok in W1. destruct W1 as (y & Y & W1). injection W1 as <-.
    cbn [app] in H. rewrite <- app_assoc in H. apply reading_start in H. destruct H as (t & d2 & s2 & M & H).
    destruct (annotation_name (d_type x)) as (N1 & N2 & N3 & N4 & N5 & N6 & N7).
    unfold meta_start in M. cbv zeta in *. rewrite N1, N2, N3, N4, N5, N6 in M. cbn [andb put_text ms_decls] in M. rewrite DE in M. rewrite declaration_read in M. cbn [parse_err sbind] in M.
    apply sbind_ok in M. destruct M as (d3 & n & A & M). apply map_err_ok in A. injection M as <- <-.
    destruct (new_declaration d1 (d_new (d_type x) (d_set x) (d_alias x) (d_format x)) d3 n (UN (dec_id x) (or_introl eq_refl)) A) as (-> & E3 & I3 & X3). change (d_assign_key ?n (d_new (d_type x) (d_set x) (d_alias x) (d_format x))) with (copy_decl n x) in I3.
    match type of H with reading i d3 ?s2 _ _ _ => assert (Q := annotators_read d (d_processors x) y Y d3 s2 _ _ D R eq_refl eq_refl H) end.
    cbn [app] in Q. apply reading_end in Q. destruct Q as (u & Q). unfold meta_end in Q. rewrite N1, N2, N3, N4, N5, N6, N7 in Q.
    cbn [andb put_text with_annotators ms_annotators ms_decls ms_prov ms_sub ms_subtype ms_text ms_meta ms_dk ms_procs] in Q. apply reading_text in Q.
    match type of Q with reading i d3 ?s2 _ _ _ => destruct (IH w2 W2 (fun dec i => HP dec (or_intror i)) ND' d3 s2 l D R eq_refl) as (d4 & dk & E4 & I4 & Q4) end.
    { intros id J. rewrite X3. destruct (String.eqb_spec id (dec_id (d_new (d_type x) (d_set x) (d_alias x) (d_format x)))) as [E|E]; [exfalso; apply NI; rewrite E in J; exact J|]. apply UN. right. exact J. }
    { exact Q. }
    exists d4, dk. split; [rewrite E4, E3; reflexivity|]. rewrite I3, app_length in *. cbn [length] in *. rewrite Nat.add_comm in *. cbn [Nat.add] in *. split; [cbn [copies]; rewrite I4, <- app_assoc; reflexivity|].
    cbn [annotations]. unfold with_annotators in *. cbn [ms_annotators ms_decls ms_prov ms_sub ms_subtype ms_text ms_meta ms_dk ms_procs] in Q4. rewrite <- app_assoc in Q4. rewrite DE. eapply reading_text_any. exact Q4.
  - apply (IH w W (fun dec i => HP dec (or_intror i)) ND d1 s l D R DE UN H).
Qed.
End Decls.

(* the processors found for declaration j *)
Fixpoint picks (d : document) (j : nat) (l : list (nat * string)) : list nat :=
  match l with
  | [] => []
  | (dk, id) :: r => (if Nat.eqb dk j then match get_processor_key_by_id d id with Some k => [k] | None => [] end else []) ++ picks d j r
  end.
Lemma picks_procs d d' j l : doc_procs d' = doc_procs d -> picks d' j l = picks d j l.
Proof. intros E. induction l as [|[dk id] l IH]; [reflexivity|]. cbn [picks]. unfold get_processor_key_by_id. rewrite E, IH. reflexivity. Qed.
Lemma upd_declaration_get d k f j : get_declaration (upd_declaration d k f) j = option_map (if Nat.eqb j k then f else fun x => x) (get_declaration d j).
Proof.
  unfold upd_declaration. destruct (get_declaration d k) as [q|] eqn:G.
  - unfold get_declaration in *. cbn [doc_with_decls doc_decls]. destruct (Nat.eqb_spec j k) as [->|N].
    + erewrite st_get_set_same by exact G. rewrite G. reflexivity.
    + rewrite st_get_set_other by exact N. destruct (st_get (doc_decls d) j); reflexivity.
  - destruct (Nat.eqb_spec j k) as [->|N]; [rewrite G; reflexivity|]. destruct (get_declaration d j); reflexivity.
Qed.
Lemma assigned l : forall d, doc_procs (assign_annotators d l) = doc_procs d /\ doc_chain (assign_annotators d l) = doc_chain d /\
  forall j, get_declaration (assign_annotators d l) j = option_map (fun x => d_with_processors x (d_processors x ++ picks d j l)) (get_declaration d j).
Proof.
  induction l as [|[dk id] l IH]; intros d; cbn [assign_annotators picks].
  - split; [reflexivity|]. split; [reflexivity|]. intros j. destruct (get_declaration d j) as [x|]; [|reflexivity]. cbn. rewrite app_nil_r. destruct x; reflexivity.
  - set (d1 := match get_processor_key_by_id d id with Some _ => _ | None => _ end). destruct (IH d1) as (P & C & G).
    assert (E : doc_procs d1 = doc_procs d /\ doc_chain d1 = doc_chain d). { unfold d1. destruct (get_processor_key_by_id d id); [|auto]. unfold upd_declaration. destruct (get_declaration d dk); auto. }
    destruct E as (EP & EC). split; [congruence|]. split; [congruence|]. intros j. rewrite G, (picks_procs d d1) by exact EP. unfold d1. destruct (get_processor_key_by_id d id) as [k|].
    + rewrite upd_declaration_get. rewrite (Nat.eqb_sym dk j). destruct (get_declaration d j) as [x|]; [|reflexivity]. cbn [option_map]. destruct (Nat.eqb j dk).
      * destruct x. cbn. rewrite <- app_assoc. reflexivity.
      * reflexivity.
    + destruct (Nat.eqb dk j); reflexivity.
Qed.
Lemma annotations_ge d items : forall n m id, In (m, id) (annotations d n items) -> n <= m.
Proof.
  induction items as [|[x|] items IH]; cbn [annotations]; intros n m id H; [destruct H| |eapply IH, H].
  apply in_app_or in H. destruct H as [H|H]; [apply in_map_iff in H; destruct H as (k & E & _); injection E as -> _; lia|]. apply IH in H. lia.
Qed.
Lemma picks_none d j l : (forall m id, In (m, id) l -> m <> j) -> picks d j l = [].
Proof. induction l as [|[m id] l IH]; intros H; [reflexivity|]. cbn [picks]. rewrite IH by (intros; eapply H; right; eassumption). destruct (Nat.eqb_spec m j) as [E|]; [|reflexivity]. destruct (H m id (or_introl eq_refl) E). Qed.
Lemma picks_app d j l1 l2 : picks d j (l1 ++ l2) = picks d j l1 ++ picks d j l2.
Proof. induction l1 as [|[m id] l1 IH]; [reflexivity|]. cbn [app picks]. rewrite IH, app_assoc. reflexivity. Qed.
Definition found (d d' : document) (k : nat) : list nat := match get_processor_key_by_id d' (pid d k) with Some k' => [k'] | None => [] end.
Lemma picks_of d d' items : (forall o, In o items -> o <> None) -> forall n j dec, nth_error items j = Some (Some dec) -> picks d' (n + j) (annotations d n items) = flat_map (found d d') (d_processors dec).
Proof.
  induction items as [|[x|] items IH]; intros NN n j dec H; [destruct j; discriminate| |exfalso; apply (NN None); [left|]; reflexivity].
  cbn [annotations]. rewrite picks_app. assert (NN' : forall o, In o items -> o <> None) by (intros o O; apply NN; right; exact O). destruct j as [|j]; cbn [nth_error] in H.
  - injection H as ->. rewrite Nat.add_0_r. rewrite (picks_none d' n (annotations d (S n) items)) by (intros m id M; apply annotations_ge in M; lia). rewrite app_nil_r.
    induction (d_processors dec) as [|k l IHl]; [reflexivity|]. cbn [map picks flat_map]. rewrite Nat.eqb_refl, IHl. reflexivity.
  - rewrite picks_none.
    + cbn [app]. replace (n + S j) with (S n + j) by lia. apply (IH NN' (S n) j dec H).
    + intros m id M. apply in_map_iff in M. destruct M as (k & E & _). injection E as <- _. lia.
Qed.
Lemma copies_nth items : (forall o, In o items -> o <> None) -> forall n j dec, nth_error items j = Some (Some dec) -> nth_error (copies n items) j = Some (Some (copy_decl (n + j) dec)).
Proof.
  induction items as [|[x|] items IH]; intros NN n j dec H; [destruct j; discriminate| |exfalso; apply (NN None); [left|]; reflexivity].
  assert (NN' : forall o, In o items -> o <> None) by (intros o O; apply NN; right; exact O). destruct j as [|j]; cbn [nth_error copies] in *; [injection H as ->; rewrite Nat.add_0_r; reflexivity|].
  rewrite (IH NN' (S n) j dec H). do 3 f_equal. lia.
Qed.
Lemma copies_le items : forall n, length (copies n items) <= length items.
Proof. induction items as [|[x|] items IH]; intros n; cbn [copies length]; [lia|specialize (IH (S n)); lia|specialize (IH n); lia]. Qed.

(* ---------------------------------------------------------------- the whole metadata block *)
Definition provenance_of (d : document) := (doc_decls d, doc_procs d, doc_chain d).
Lemma metas_read i m : forall d s l D R, reading i d s (flat_map w_meta m ++ l) D R -> exists d1 s1, provenance_of d1 = provenance_of d /\ reading i d1 s1 l D R.
Proof.
  induction m as [|[k v] m IH]; intros d s l D R H; [exists d, s; auto|]. cbn [flat_map w_meta fst snd app] in H.
  apply reading_start in H. destruct H as (t & d1 & s1 & M & H). rewrite meta_open_state in M. injection M as <- <-. apply reading_text in H.
  apply reading_end in H. destruct H as (u & H). unfold meta_end in H. cbn [String.eqb Ascii.eqb Bool.eqb andb] in H. apply reading_text in H. apply IH in H. destruct H as (d2 & s2 & E & H). exists d2, s2. split; [|exact H].
  rewrite E. clear. unfold meta_close. repeat match goal with |- context [match ?x with _ => _ end] => destruct x end; reflexivity.
Qed.
Lemma submetas_read i (m : list (string * metadata)) : forall d s l D R, reading i d s (flat_map (fun p => flat_map w_meta (m_data (snd p))) m ++ l) D R -> exists d1 s1, provenance_of d1 = provenance_of d /\ reading i d1 s1 l D R.
Proof.
  induction m as [|x m IH]; intros d s l D R H; [exists d, s; auto|]. cbn [flat_map] in H. rewrite <- app_assoc in H. apply metas_read in H. destruct H as (d1 & s1 & E & H).
  apply IH in H. destruct H as (d2 & s2 & E2 & H). exists d2, s2. split; [congruence|exact H].
Qed.
Lemma map_NoDup_in {A B} (f : A -> B) l : (forall a b, In a l -> In b l -> f a = f b -> a = b) -> NoDup l -> NoDup (map f l).
Proof.
  intros I' ND. induction ND as [|a l NI ND IH]; [constructor|]. cbn [map]. constructor.
  - intros X. apply in_map_iff in X. destruct X as (b & E & X). apply NI. rewrite (I' a b (or_introl eq_refl) (or_intror X) (eq_sym E)). exact X.
  - apply IH. intros x y X Y. apply I'; right; assumption.
Qed.
Lemma provenance_read i fuel d m d1 rest D R lst : reachable anything d -> listed d (doc_chain d) lst -> NoDup lst ->
  (forall k x, get_declaration d k = Some x -> d_processors x <> [] /\ incl (d_processors x) lst) ->
  w_metadata fuel d = Ok m -> doc_decls d1 = st_empty -> doc_procs d1 = st_empty -> doc_chain d1 = [] -> reading i d1 ms_init (m ++ rest) D R ->
  Forall2 (same_processor d D None) (doc_chain d) (doc_chain D) /\
  (forall k x, get_declaration d k = Some x -> exists y, get_declaration D k = Some y /\ d_type y = d_type x /\ d_set y = d_set x /\ d_alias y = d_alias x /\ d_format y = d_format x /\
    Forall2 (fun a b => exists par, same_processor d D par a b) (d_processors x) (d_processors y)) /\
  (forall k q, In k lst -> get_processor d k = Some q -> pr_begin q = None /\ pr_end q = None) /\
  forall k, get_declaration d k = None -> get_declaration D k = None.
Proof.
  intros RE LS ND HD W E1 E2 E3 H. unfold w_metadata in W. apply rbind_ok in W. destruct W as (decls & WD & W). apply rbind_ok in W. destruct W as (prov & WP & W). injection W as <-.
  cbn [app] in H. destruct (reading_start _ _ _ _ _ _ _ _ H) as (t & d2 & s2 & M & H2). clear H.
  destruct (metadata_start_state d1 (put_text ms_init t) (m_type (doc_metadata d)) (m_src (doc_metadata d))) as (s' & E & ES). rewrite E in M. injection M as <- <-. clear E. rewrite ES in H2. clear s' ES.
  apply reading_text in H2. rewrite <- !app_assoc in H2.
  match type of H2 with reading i ?x _ _ _ _ => set (d1' := x) in H2; change (doc_decls d1) with (doc_decls d1') in E1; change (doc_procs d1) with (doc_procs d1') in E2; change (doc_chain d1) with (doc_chain d1') in E3; clearbody d1' end.
  clear d1. rename d1' into d1.
  (* declarations *)
  unfold w_declarations in WD. apply rbind_ok in WD. destruct WD as (xd & XD & WD). injection WD as <-. cbn [app] in H2. apply reading_start in H2. destruct H2 as (t1 & d2 & s2 & M & H).
  unfold meta_start in M. cbn [String.eqb Ascii.eqb Bool.eqb] in M. injection M as <- <-. apply reading_text in H. rewrite <- app_assoc in H.
  assert (DE : st_dense (doc_decls d)) by (eapply decl_dense; [apply anything_ok|exact RE]).
  assert (NN : forall o, In o (st_items (doc_decls d)) -> o <> None).
  { intros o O ->. apply In_nth_error in O. destruct O as (j & J). destruct (DE j) as (x & X); [unfold st_len; apply nth_error_Some; congruence|]. unfold st_get in X. rewrite J in X. discriminate. }
  assert (GI : forall j x, nth_error (st_items (doc_decls d)) j = Some (Some x) -> get_declaration d j = Some x) by (intros j x J; unfold get_declaration, st_get; rewrite J; reflexivity).
  match type of H with reading i d1 ?s2 _ _ _ => destruct (declarations_read i d _ _ XD) with (d1 := d1) (s := s2) (l := [WEnd "annotations"; wnl] ++ prov ++ flat_map w_meta (m_data (doc_metadata d)) ++
       flat_map (fun p => flat_map w_meta (m_data (snd p))) (doc_submetadata d) ++ [WEnd "metadata"; wnl] ++ rest) (D := D) (R := R) as (d2 & dk & B2 & I2 & H2) end.
  { intros x X. apply In_nth_error in X. destruct X as (j & J). apply (HD j x (GI _ _ J)). }
  { assert (U : forall j1 j2 x1 x2, nth_error (st_items (doc_decls d)) j1 = Some (Some x1) -> nth_error (st_items (doc_decls d)) j2 = Some (Some x2) -> dec_id x1 = dec_id x2 -> j1 = j2).
    { intros j1 j2 x1 x2 J1 J2 E. assert (A1 : get_declaration_key_by_id d (dec_id x1) = Some j1) by (apply get_by_id_declaration; [exact RE|]; exists x1; split; [apply GI, J1|reflexivity]).
      assert (A2 : get_declaration_key_by_id d (dec_id x1) = Some j2) by (apply get_by_id_declaration; [exact RE|]; exists x2; split; [apply GI, J2|symmetry; exact E]). congruence. }
    clear - U. induction (st_items (doc_decls d)) as [|[x|] its IH]; cbn [dec_ids]; [constructor| |].
    - constructor.
      + intros I'. assert (Q : exists j y, nth_error its j = Some (Some y) /\ dec_id y = dec_id x).
        { clear - I'. induction its as [|[y|] its IH]; cbn [dec_ids] in I'; [destruct I'| |]. - destruct I' as [E|I']; [exists 0, y; auto|]. destruct (IH I') as (j & z & J). exists (S j), z. exact J. - destruct (IH I') as (j & z & J). exists (S j), z. exact J. }
        destruct Q as (j & y & J & E). specialize (U 0 (S j) x y eq_refl J (eq_sym E)). discriminate.
      + apply IH. intros j1 j2 x1 x2 J1 J2 E. specialize (U (S j1) (S j2) x1 x2 J1 J2 E). congruence.
    - apply IH. intros j1 j2 x1 x2 J1 J2 E. specialize (U (S j1) (S j2) x1 x2 J1 J2 E). congruence. }
  { reflexivity. }
  { intros id _. unfold get_declaration_key_by_id, st_id_to_key. rewrite E1. reflexivity. }
  { exact H. }
  clear H XD xd. rewrite E1 in I2. change (st_items st_empty) with (@nil (option declaration)) in I2. cbn [app length] in I2. rewrite E1 in H2. change (st_items st_empty) with (@nil (option declaration)) in H2.
  cbn [put_text ms_init with_annotators ms_annotators ms_decls ms_prov ms_sub ms_subtype ms_text ms_meta ms_dk ms_procs app length] in H2.
  apply reading_end in H2. destruct H2 as (u & H2). unfold meta_end in H2. cbn [String.eqb Ascii.eqb Bool.eqb put_text ms_init with_annotators ms_annotators ms_decls ms_prov ms_sub ms_subtype ms_text ms_meta ms_dk ms_procs] in H2. apply reading_text in H2.
  (* processors *)
  unfold w_provenance in WP. apply rbind_ok in WP. destruct WP as (xp & XP & WP). injection WP as <-. cbn [app] in H2. apply reading_start in H2. destruct H2 as (t2 & d3 & s3 & M & H).
  unfold meta_start in M. cbn [String.eqb Ascii.eqb Bool.eqb put_text ms_annotators ms_decls ms_prov ms_sub ms_subtype ms_text ms_meta ms_dk ms_procs] in M. injection M as <- <-. apply reading_text in H. rewrite <- app_assoc in H.
  match type of H with reading i d2 ?s2 _ _ _ => destruct (procs_read i d fuel _ lst _ LS XP d2 s2 _ D R eq_refl H) as (vs & d3 & FV & AP & H3) end. clear H.
  cbn [ms_procs add_all] in AP. destruct (listed_values _ _ _ LS _ FV) as (IDS & BN).
  assert (P2 : doc_procs d2 = st_empty /\ doc_chain d2 = []) by (rewrite B2; auto). destruct P2 as (P2 & C2).
  assert (GL : forall k, In k lst -> exists p, get_processor d k = Some p).
  { clear - LS. induction LS as [|k ks p l1 l2 G L1 IH1 L2 IH2]; [intros k []|]. intros j [<-|J]; [eauto|]. apply in_app_or in J. destruct J; auto. }
  destruct (chain_added vs d2 d3 BN) as (ks & CH & MF & _ & _ & OP); [| |exact AP|].
  { rewrite IDS. apply map_NoDup_in; [|exact ND]. intros a b A B E. destruct (GL a A) as (pa & GA). destruct (GL b B) as (pb & GB). unfold pid in E. rewrite GA, GB in E.
    assert (X1 : get_processor_key_by_id d (pr_id pa) = Some a) by (apply get_by_id_processor; eauto). assert (X2 : get_processor_key_by_id d (pr_id pa) = Some b) by (apply get_by_id_processor; eauto). congruence. }
  { intros id _. unfold get_processor_key_by_id, st_id_to_key. rewrite P2. reflexivity. }
  rewrite C2 in CH. cbn [app] in CH. destruct (made_same d d3 _ _ LS _ _ _ FV MF) as (SP & SA). rewrite <- CH in SP. pose proof (listed_undated _ _ _ LS _ FV) as UD. clear IDS BN MF FV.
  cbn [app] in H3. apply reading_end in H3. destruct H3 as (v & H3). unfold meta_end in H3. cbn [String.eqb Ascii.eqb Bool.eqb put_text ms_annotators ms_decls ms_prov ms_sub ms_subtype ms_text ms_meta ms_dk ms_procs] in H3. apply reading_text in H3.
  apply metas_read in H3. destruct H3 as (d4 & s4 & E4 & H4). apply submetas_read in H4. destruct H4 as (d5 & s5 & E5 & H5). cbn [app] in H5. apply reading_end in H5. destruct H5 as (w & -> & _).
  rewrite E4 in E5. injection E5 as D5 P5 C5. destruct (assigned (annotations d 0 (st_items (doc_decls d))) d3) as (AP3 & AC3 & AG3). rewrite AP3 in P5. rewrite AC3 in C5.
  assert (SAME : forall par a b, same_processor d d3 par a b -> same_processor d d5 par a b) by (apply same_kept; exact P5).
  split; [|split; [|split; [exact UD|]]].
  3:{ intros k G. assert (L : length (st_items (doc_decls d)) <= k).
      { destruct (Nat.le_gt_cases (length (st_items (doc_decls d))) k) as [L|L]; [exact L|]. exfalso. destruct (DE k L) as (x & X). unfold get_declaration in G. congruence. }
      unfold get_declaration. rewrite D5. fold (get_declaration (assign_annotators d3 (annotations d 0 (st_items (doc_decls d)))) k). rewrite AG3.
      assert (G3 : get_declaration d3 k = None); [|rewrite G3; reflexivity]. unfold get_declaration, st_get. rewrite OP. cbn [doc_with_chain doc_with_procs doc_decls]. rewrite I2.
      rewrite (proj2 (nth_error_None _ _)); [reflexivity|]. pose proof (copies_le (st_items (doc_decls d)) 0). lia. }
  - rewrite C5. clear - SP SAME. induction SP; constructor; auto.
  - intros k x G. assert (NK : nth_error (st_items (doc_decls d)) k = Some (Some x)) by (unfold get_declaration, st_get in G; destruct (nth_error (st_items (doc_decls d)) k) as [[y|]|]; congruence).
    assert (G3 : get_declaration d3 k = Some (copy_decl k x)). { unfold get_declaration, st_get. rewrite OP. cbn [doc_with_chain doc_with_procs doc_decls]. rewrite I2. rewrite (copies_nth _ NN 0 k x NK). reflexivity. }
    assert (G5 : get_declaration d5 k = Some (d_with_processors (copy_decl k x) (flat_map (found d d3) (d_processors x)))).
    { unfold get_declaration. rewrite D5. fold (get_declaration (assign_annotators d3 (annotations d 0 (st_items (doc_decls d)))) k). rewrite AG3, G3. cbn [option_map]. assert (Q := picks_of d d3 _ NN 0 k x NK). cbn [Nat.add] in Q. rewrite Q. reflexivity. }
    eexists. split; [exact G5|]. split; [reflexivity|]. split; [reflexivity|]. split; [reflexivity|]. split; [reflexivity|].
    cbn [d_with_processors d_processors]. destruct (HD k x G) as (_ & IN). clear - IN SA SAME. induction (d_processors x) as [|a l IH]; [constructor|].
    destruct (SA a (IN a (or_introl eq_refl))) as (par & k' & S). cbn [flat_map]. unfold found at 1. assert (PD : get_processor_key_by_id d3 (pid d a) = Some k') by (inversion S as [? ? ? p q G1 G2 SV PA IX F]; subst; unfold pid; rewrite G1; exact IX).
    rewrite PD. cbn [app]. constructor; [exists par; apply SAME, S|]. apply IH. intros z Z. apply IN. right. exact Z.
Qed.
