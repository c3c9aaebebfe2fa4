(* Facts about text extraction *)
From Coq Require Import String List Bool Arith NArith Lia Relations.
From Verif Require Import Base Types SpecTable Attrib Element Store Metadata Document Select DocOps Text History BaseFacts TypesFacts StoreFacts Spec
  FrameFacts InvFacts DocFacts StoreThms SelSpec Returns TextSpec.
Import ListNotations.
Open Scope string_scope.
Open Scope list_scope.

(* ---------------------------------------------------------------- more fuel, same result *)
Definition below {A} (r r' : res A) : Prop := r = OutOfFuel \/ r' = r.
Lemma below_refl {A} (r : res A) : below r r.
Proof. right. reflexivity. Qed.
Lemma below_bind {A B} (r r' : res A) (f f' : A -> res B) : below r r' -> (forall a, below (f a) (f' a)) -> below (rbind r f) (rbind r' f').
Proof. intros [->| ->] H; [left; reflexivity|]. destruct r; cbn; [apply H|right; reflexivity..]. Qed.
Lemma below_get {A} (r r' : res A) : below r r' -> r <> OutOfFuel -> r' = r.
Proof. intros [H|H]; congruence. Qed.
Lemma container_below d rec rec' : (forall c, below (rec c) (rec' c)) -> forall l acc, below (container_loop d rec acc l) (container_loop d rec' acc l).
Proof.
  intros H. induction l as [|x l IH]; intros acc; cbn [container_loop]; [apply below_refl|]. destruct x; try apply IH. destruct (get_elementdata d k) as [c|]; [|apply IH].
  cbv zeta. destruct (p_printable (props (e_type c))); [|apply IH]. apply below_bind; [apply H|]. intros a. apply IH.
Qed.
Lemma part_below rec rec' del del' c st : (forall c p, below (rec c p) (rec' c p)) -> (forall c, below (del c) (del' c)) ->
  below (text_part rec del c st) (text_part rec' del' c st).
Proof.
  intros H K. unfold text_part. destruct st as [t s]. destruct (H c (Some s)) as [-> | ->]; [left; reflexivity|]. destruct (rec c (Some s)); try apply below_refl.
  destruct (K c) as [-> | ->]; [left; reflexivity|]. destruct (del c); apply below_refl.
Qed.
Lemma children_below d rec rec' del del' : (forall c p, below (rec c p) (rec' c p)) -> (forall c, below (del c) (del' c)) ->
  forall l st tc, below (children_loop d rec del st tc l) (children_loop d rec' del' st tc l).
Proof.
  intros H K. induction l as [|x l IH]; intros st tc; cbn [children_loop]; [apply below_refl|]. destruct x; try apply IH. destruct (get_elementdata d k) as [c|]; [|apply IH].
  destruct (text_child (e_type c)); [apply below_bind; [apply part_below; assumption|]; intros; apply IH|].
  destruct (et_eqb (e_type c) ET_WordReference).
  - apply below_bind; [apply below_refl|]. intros [t|]; [|apply IH]. apply below_bind; [apply part_below; assumption|]; intros; apply IH.
  - destruct (et_eqb (e_type c) ET_TextContent); apply IH.
Qed.
Lemma delim_S f : forall d rt e, below (get_textdelimiter f d rt e) (get_textdelimiter (S f) d rt e).
Proof.
  induction f as [|f IH]; intros d rt e; [left; reflexivity|]. cbn [get_textdelimiter]. destruct (p_textdelimiter (props (e_type e))); [apply below_refl|].
  destruct (last_element d (e_data e)); [apply IH|apply below_refl].
Qed.
Lemma text_S f : forall d a b st rt e p, below (text_by_key f d a b st rt e p) (text_by_key (S f) d a b st rt e p).
Proof.
  induction f as [|f IH]; intros d a b st rt e p; [left; reflexivity|].
  assert (X : forall g, text_by_key (S g) d a b st rt e p =
    (let pr := props (e_type e) in
      if p_textcontainer pr then container_loop d (fun c => text_by_key g d a b st rt c None) "" (e_data e)
      else if negb (p_printable pr) || p_hidden pr then Err ENoText
      else
        let? x := children_loop d (text_by_key g d a b false rt) (get_textdelimiter g d rt) ("", "") None (e_data e) in
        let '(text, tc) := x in
        let? text :=
          match tc with
          | Some c =>
              if str_is_empty text then
                match text_by_key g d a b false rt c None with
                | Ok s => Ok s
                | Err _ => Ok text
                | Panic => Panic
                | OutOfFuel => OutOfFuel
                end
              else Ok text
          | None => Ok text
          end in
        if str_is_empty text then Err ENoText
        else Ok (match p with Some q => q ++ text | None => text end)%string)) by reflexivity.
  rewrite (X f), (X (S f)). cbv zeta. destruct (p_textcontainer _); [apply container_below; intros c; apply IH|]. destruct (_ || _); [apply below_refl|].
  apply below_bind; [apply children_below; [intros; apply IH|intros; apply delim_S]|]. intros [t tc]. apply below_bind; [|intros; apply below_refl].
  destruct tc as [c|]; [|apply below_refl]. destruct (str_is_empty t); [|apply below_refl]. destruct (IH d a b false rt c None) as [E|E]; [rewrite E; left; reflexivity|rewrite E; apply below_refl].
Qed.
Lemma up_mono {A} (f : nat -> res A) : (forall n, below (f n) (f (S n))) -> forall n m, n <= m -> f n <> OutOfFuel -> f m = f n.
Proof. intros H n m L N. induction L as [|m L IH]; [reflexivity|]. destruct (H m) as [E|E]; congruence. Qed.
Lemma text_mono d a b st rt e p n m : n <= m -> text_by_key n d a b st rt e p <> OutOfFuel -> text_by_key m d a b st rt e p = text_by_key n d a b st rt e p.
Proof. apply (up_mono (fun f => text_by_key f d a b st rt e p)). intros f. apply text_S. Qed.
Lemma delim_mono d rt e n m : n <= m -> get_textdelimiter n d rt e <> OutOfFuel -> get_textdelimiter m d rt e = get_textdelimiter n d rt e.
Proof. apply (up_mono (fun f => get_textdelimiter f d rt e)). intros f. apply delim_S. Qed.

(* ---------------------------------------------------------------- set, class and strictness play no role *)
Lemma container_ext d rec rec' : (forall c, rec c = rec' c) -> forall l acc, container_loop d rec acc l = container_loop d rec' acc l.
Proof.
  intros H. induction l as [|x l IH]; intros acc; cbn [container_loop]; [reflexivity|]. destruct x; try apply IH. destruct (get_elementdata d k) as [c|]; [|apply IH].
  cbv zeta. destruct (p_printable (props (e_type c))); [|apply IH]. rewrite H. destruct (rec' c); cbn; try reflexivity. apply IH.
Qed.
Lemma children_ext d rec rec' del del' : (forall c p, rec c p = rec' c p) -> (forall c, del c = del' c) ->
  forall l st tc, children_loop d rec del st tc l = children_loop d rec' del' st tc l.
Proof.
  intros H K. assert (P : forall c st, text_part rec del c st = text_part rec' del' c st) by (intros c [t s]; unfold text_part; rewrite H, K; reflexivity).
  induction l as [|x l IH]; intros st tc; cbn [children_loop]; [reflexivity|]. destruct x; try apply IH. destruct (get_elementdata d k) as [c|]; [|apply IH].
  rewrite P. destruct (text_child (e_type c)); [destruct (text_part _ _ _ _); cbn; try reflexivity; apply IH|].
  destruct (et_eqb (e_type c) ET_WordReference).
  - destruct (r_resolve d c) as [[t|]| | |]; cbn; try reflexivity; [|apply IH]. rewrite P. destruct (text_part _ _ _ _); cbn; try reflexivity; apply IH.
  - destruct (et_eqb (e_type c) ET_TextContent); apply IH.
Qed.
Lemma text_params f : forall d a b st a' b' st' rt e p, text_by_key f d a b st rt e p = text_by_key f d a' b' st' rt e p.
Proof.
  induction f as [|f IH]; intros; [reflexivity|]. cbn [text_by_key]. destruct (p_textcontainer _); [apply container_ext; intros c; apply IH|]. destruct (_ || _); [reflexivity|].
  rewrite (children_ext d (text_by_key f d a b false rt) (text_by_key f d a' b' false rt) (get_textdelimiter f d rt) (get_textdelimiter f d rt)); [|intros; apply IH|reflexivity].
  destruct (children_loop _ _ _ _ _ _) as [[t tc]| | |]; cbn; try reflexivity. destruct tc as [c|]; [|reflexivity]. destruct (str_is_empty t); [|reflexivity]. rewrite (IH d a b false a' b' false rt c None). reflexivity.
Qed.

(* ---------------------------------------------------------------- delimiters *)
Lemma last_element_some d l c : last_element d l = Some c <-> last_child d l c.
Proof.
  revert c. induction l as [|x l IH]; intros c; cbn [last_element].
  - split; [discriminate|]. intros (l1 & k & l2 & E & _). destruct l1; discriminate.
  - destruct (last_element d l) as [c'|] eqn:E.
    + split.
      * intros H. inversion H; subst c'. destruct (proj1 (IH c) eq_refl) as (l1 & k & l2 & -> & G & N). exists (x :: l1), k, l2. auto.
      * intros (l1 & k & l2 & Q & G & N). destruct l1 as [|y l1]; injection Q as -> ->.
        -- exfalso. destruct (proj1 (IH c') eq_refl) as (l1 & j & l3 & -> & G' & _). rewrite N in G' by (apply in_app_iff; right; left; reflexivity). discriminate.
        -- apply IH. exists l1, k, l2. auto.
    + assert (NO : forall j, In (DElement j) l -> get_elementdata d j = None).
      { clear - E. induction l as [|y l IHl]; intros j; [intros []|]. cbn [last_element] in E. destruct (last_element d l) eqn:E'; [discriminate|]. intros [->|I]; [exact E|apply IHl; auto]. }
      split.
      * intros H. destruct x; try discriminate. exists [], k, l. auto.
      * intros (l1 & k & l2 & Q & G & N). destruct l1 as [|y l1]; injection Q as -> ->; [exact G|]. rewrite NO in G by (apply in_app_iff; right; left; reflexivity). discriminate.
Qed.
Lemma last_element_none d l : last_element d l = None <-> forall k, In (DElement k) l -> get_elementdata d k = None.
Proof.
  induction l as [|x l IH]; cbn [last_element]; [split; [intros _ k []|reflexivity]|]. destruct (last_element d l) as [c|] eqn:E.
  - split; [discriminate|]. intros H. apply IH. intros k I. apply H. right. exact I.
  - split.
    + intros H k [->|I]; [exact H|apply IH; auto].
    + intros H. destruct x; try reflexivity. apply H. left. reflexivity.
Qed.
Lemma space_attr e : space_of e = false <-> e_attrib e AB_SPACE = Some (A_Space false).
Proof. unfold space_of. destruct (e_attrib e AB_SPACE) as [[]|]; try (split; discriminate). destruct b; split; congruence. Qed.
Lemma in_ab a l : existsb (ab_eqb a) l = true <-> In a l.
Proof.
  rewrite existsb_exists. split.
  - intros (x & I & E). destruct (ab_eqb_spec a x); [subst; exact I|discriminate].
  - intros I. exists a. split; [exact I|]. apply ab_eqb_refl.
Qed.
Lemma no_space_iff e : no_space e <-> existsb (ab_eqb AB_SPACE) (p_optional_attribs (props (e_type e))) = true /\ space_of e = false.
Proof. unfold no_space. rewrite in_ab, space_attr. reflexivity. Qed.
Lemma delim_sound f : forall d rt e s, get_textdelimiter f d rt e = Ok s -> delimiter d rt e s.
Proof.
  induction f as [|f IH]; intros d rt e s H; [discriminate|]. cbn [get_textdelimiter] in H. destruct (p_textdelimiter (props (e_type e))) as [x|] eqn:D.
  - destruct (existsb _ _) eqn:E.
    + destruct (rt || space_of e) eqn:R.
      * inversion H; subst. apply del_own; [exact D|]. apply orb_prop in R. destruct R as [->|R]; [auto|]. right. rewrite no_space_iff. intros (_ & Q). congruence.
      * inversion H; subst. apply orb_false_iff in R. destruct R. eapply del_no_space; [exact D|assumption|]. apply no_space_iff. auto.
    + inversion H; subst. apply del_own; [exact D|]. right. rewrite no_space_iff. intros (Q & _). congruence.
  - destruct (last_element d (e_data e)) as [c|] eqn:L.
    + eapply del_inherited; [exact D|apply last_element_some, L|apply IH, H].
    + inversion H; subst. apply del_none; [exact D|apply last_element_none, L].
Qed.
Lemma delim_complete d rt e s : delimiter d rt e s -> exists f, get_textdelimiter f d rt e = Ok s.
Proof.
  intros H. induction H as [e s D C|e s D R N|e c s D L H (f & IH)|e D N].
  - exists 1. cbn [get_textdelimiter]. rewrite D. destruct (existsb _ _) eqn:E; [|reflexivity]. destruct (rt || space_of e) eqn:R; [reflexivity|]. exfalso. apply orb_false_iff in R. destruct R as (R1 & R2).
    destruct C as [C|C]; [congruence|]. apply C, no_space_iff. auto.
  - exists 1. cbn [get_textdelimiter]. rewrite D. apply no_space_iff in N. destruct N as (N1 & N2). rewrite N1, R, N2. reflexivity.
  - exists (S f). cbn [get_textdelimiter]. rewrite D. apply last_element_some in L. rewrite L. exact IH.
  - exists 1. cbn [get_textdelimiter]. rewrite D. apply last_element_none in N. rewrite N. reflexivity.
Qed.
Lemma delim_nofail f d rt e : get_textdelimiter f d rt e = OutOfFuel \/ exists s, get_textdelimiter f d rt e = Ok s.
Proof.
  revert e. induction f as [|f IH]; intros e; [auto|]. cbn [get_textdelimiter]. destruct (p_textdelimiter _) as [x|].
  - right. destruct (existsb _ _); [|eauto]. destruct (_ || _); eauto.
  - destruct (last_element _ _); [apply IH|eauto].
Qed.

(* ---------------------------------------------------------------- from some fuel on *)
(* [ends f v]: from some fuel on the result is v *)
Definition ends {A} (f : nat -> res A) (v : res A) : Prop := exists n, forall fuel, n <= fuel -> f fuel = v.
Lemma ends_text d rt e n v a b st p : text_by_key n d a b st rt e p = v -> v <> OutOfFuel -> forall a' b' st', ends (fun f => text_by_key f d a' b' st' rt e p) v.
Proof. intros H N a' b' st'. exists n. intros m L. rewrite (text_params m d a' b' st' a b st). subst v. apply text_mono; auto. Qed.
Lemma has_text_ends d rt e t : has_text d rt e t -> forall a b st, ends (fun f => text_by_key f d a b st rt e None) (Ok t).
Proof. intros (n & H). eapply ends_text; [exact H|discriminate]. Qed.
Lemma no_text_ends d rt e : no_text d rt e -> exists x, forall a b st, ends (fun f => text_by_key f d a b st rt e None) (Err x).
Proof. intros (n & x & H). exists x. eapply ends_text; [exact H|discriminate]. Qed.
Lemma ends_2 {A B} (f : nat -> res A) (g : nat -> res B) v w : ends f v -> ends g w -> exists n, forall fuel, n <= fuel -> f fuel = v /\ g fuel = w.
Proof. intros (n & H) (m & K). exists (Nat.max n m). intros fuel L. split; [apply H|apply K]; lia. Qed.
Lemma ends_det {A} (f : nat -> res A) v w : ends f v -> ends f w -> v = w.
Proof. intros H K. destruct (ends_2 _ _ _ _ H K) as (n & Q). destruct (Q n (le_n n)). congruence. Qed.
Lemma delimiter_ends d rt e s : delimiter d rt e s -> ends (fun f => get_textdelimiter f d rt e) (Ok s).
Proof. intros H. apply delim_complete in H. destruct H as (n & H). exists n. intros m L. rewrite <- H. apply delim_mono; [exact L|congruence]. Qed.

(* the effect of the delimiter passed in *)
Definition contb (e : elementdata) : bool := p_textcontainer (props (e_type e)).
Definition lead (e : elementdata) (p t : string) : string := ((if contb e then "" else p) ++ t)%string.
Lemma text_prev f d a b st rt e p : text_by_key f d a b st rt e (Some p) = rbind (text_by_key f d a b st rt e None) (fun t => Ok (lead e p t)).
Proof.
  destruct f as [|f]; [reflexivity|]. cbn [text_by_key]. cbv zeta. unfold lead, contb. destruct (p_textcontainer (props (e_type e))); [destruct (container_loop _ _ _ _); reflexivity|].
  destruct (_ || _); [reflexivity|]. destruct (children_loop _ _ _ _ _ _) as [[t tc]| | |]; try reflexivity. cbn [rbind].
  destruct tc as [c|]; [destruct (str_is_empty t); [destruct (text_by_key f d a b false rt c None) as [x| | |]; try reflexivity|]|]; cbn [rbind];
    match goal with |- context [str_is_empty ?z] => destruct (str_is_empty z); reflexivity end.
Qed.
Lemma noncont_nonempty f d a b st rt e t : contb e = false -> text_by_key f d a b st rt e None = Ok t -> t <> "".
Proof.
  destruct f as [|f]; [discriminate|]. cbn [text_by_key]. cbv zeta. unfold contb. intros ->. destruct (_ || _); [discriminate|]. intros H.
  apply rbind_ok in H. destruct H as ([x tc] & _ & H). apply rbind_ok in H. destruct H as (y & _ & H). destruct (str_is_empty y) eqn:E; [discriminate|]. inversion H; subst. intros ->. discriminate.
Qed.

(* ---------------------------------------------------------------- which children take part *)
Definition resolves (d : document) : Prop := forall c, r_resolve d c = Ok (target d c).
Lemma reachable_resolves d : reachable anything d -> resolves d.
Proof.
  intros R c. unfold r_resolve, target. destruct (e_idref c) as [id|]; [|reflexivity]. destruct (get_by_id_element d id R) as (N & _). unfold get_elementdata_by_id, st_get_by_id in *. unfold get_element_key_by_id, get_elementdata.
  destruct (st_id_to_key _ id) as [k|]; [|reflexivity]. destruct (st_get _ k); [reflexivity|congruence].
Qed.
Lemma text_child_iff t : text_child t = true <-> structural t.
Proof.
  unfold text_child, structural. rewrite !orb_true_iff, !group_contains_In. destruct (et_eqb_spec t ET_Correction); split; intuition (auto; discriminate).
Qed.
Definition srcb (d : document) (x : datatype) : option elementdata :=
  match x with
  | DElement k => match get_elementdata d k with
                  | Some c => if text_child (e_type c) then Some c else if et_eqb (e_type c) ET_WordReference then target d c else None
                  | None => None
                  end
  | _ => None
  end.
Lemma source_iff d x o : source d x o <-> o = srcb d x.
Proof.
  assert (WR : ~ structural ET_WordReference) by (rewrite <- text_child_iff; vm_compute; discriminate).
  split.
  - intros H. destruct H as [k c G T|k c G T|k c G N T|k G|x N]; cbn [srcb]; try rewrite G.
    + apply text_child_iff in T. rewrite T. reflexivity.
    + rewrite T. reflexivity.
    + destruct (text_child (e_type c)) eqn:E; [apply text_child_iff in E; contradiction|]. destruct (et_eqb_spec (e_type c) ET_WordReference); [contradiction|reflexivity].
    + reflexivity.
    + destruct x; try reflexivity. destruct (N k eq_refl).
  - intros ->. destruct x; try (apply src_data; discriminate). cbn [srcb]. destruct (get_elementdata d k) as [c|] eqn:G; [|apply src_missing, G].
    destruct (text_child (e_type c)) eqn:T; [apply src_child; [exact G|apply text_child_iff, T]|].
    destruct (et_eqb_spec (e_type c) ET_WordReference) as [E|E]; [apply src_ref; assumption|]. eapply src_other; [exact G| |exact E]. rewrite <- text_child_iff. congruence.
Qed.
Fixpoint srcsb (d : document) (l : list datatype) : list elementdata :=
  match l with
  | [] => []
  | x :: r => match srcb d x with Some c => c :: srcsb d r | None => srcsb d r end
  end.
Lemma sources_iff d l cs : sources d l cs <-> cs = srcsb d l.
Proof.
  split.
  - intros H. induction H as [|x c l r S H ->|x l r S H ->]; cbn [srcsb]; [reflexivity|..]; apply source_iff in S; rewrite <- S; reflexivity.
  - intros ->. induction l as [|x l IH]; cbn [srcsb]; [constructor|]. destruct (srcb d x) as [c|] eqn:E; [apply srcs_one|apply srcs_none]; try exact IH; apply source_iff; auto.
Qed.
Definition tcb (d : document) (x : datatype) : option elementdata :=
  match x with
  | DElement k => match get_elementdata d k with
                  | Some c => if et_eqb (e_type c) ET_TextContent then Some c else None
                  | None => None
                  end
  | _ => None
  end.
Fixpoint last_tc (d : document) (o : option elementdata) (l : list datatype) : option elementdata :=
  match l with
  | [] => o
  | x :: r => last_tc d (match tcb d x with Some c => Some c | None => o end) r
  end.
(* the loop over the children, as a loop over the sources *)
Fixpoint parts_loop (rec : elementdata -> option string -> res string) (del : elementdata -> res string) (st : string * string) (l : list elementdata) : res string :=
  match l with
  | [] => Ok (fst st)
  | c :: r => let? st' := text_part rec del c st in parts_loop rec del st' r
  end.
Lemma children_parts d rec del : resolves d -> forall l st tc,
  children_loop d rec del st tc l = rbind (parts_loop rec del st (srcsb d l)) (fun t => Ok (t, last_tc d tc l)).
Proof.
  intros RS. induction l as [|x l IH]; intros st tc; cbn [children_loop srcsb last_tc]; [reflexivity|]. destruct x; try (rewrite IH; reflexivity). cbn [srcb tcb].
  destruct (get_elementdata d k) as [c|]; [|rewrite IH; reflexivity].
  assert (X : text_child (e_type c) = true \/ e_type c = ET_WordReference -> et_eqb (e_type c) ET_TextContent = false).
  { intros Q. destruct (et_eqb_spec (e_type c) ET_TextContent) as [E|E]; [|reflexivity]. rewrite E in Q. destruct Q as [Q|Q]; discriminate. }
  destruct (text_child (e_type c)) eqn:T.
  - rewrite X by auto. cbn [parts_loop]. destruct (text_part rec del c st); cbn [rbind]; try reflexivity. apply IH.
  - destruct (et_eqb_spec (e_type c) ET_WordReference) as [E|E].
    + rewrite X by auto. rewrite RS. cbn [rbind]. destruct (target d c) as [t|]; [|apply IH]. cbn [parts_loop]. destruct (text_part rec del t st); cbn [rbind]; try reflexivity. apply IH.
    + destruct (et_eqb (e_type c) ET_TextContent); rewrite IH; reflexivity.
Qed.
Lemma last_tc_some d c l : last_tc d None l = Some c <-> last_text_content d l c.
Proof.
  assert (G : forall l o, last_tc d o l = Some c <-> last_text_content d l c \/ (o = Some c /\ forall j x, In (DElement j) l -> get_elementdata d j = Some x -> e_type x <> ET_TextContent)).
  { clear l. induction l as [|x l IH]; intros o; cbn [last_tc].
    - split; [intros ->; right; split; [reflexivity|intros j x []]|]. intros [(l1 & k & l2 & E & _)|(-> & _)]; [destruct l1; discriminate|reflexivity].
    - rewrite IH. unfold last_text_content. destruct (tcb d x) as [c'|] eqn:B.
      + assert (exists k, x = DElement k /\ get_elementdata d k = Some c' /\ e_type c' = ET_TextContent) as (k & -> & Gk & T).
        { unfold tcb in B. destruct x; try discriminate. exists k. destruct (get_elementdata d k) as [z|]; [|discriminate]. destruct (et_eqb_spec (e_type z) ET_TextContent); inversion B; subst. auto. }
        split.
        * intros [(l1 & j & l2 & -> & Q)|(Q & N)]; [left; exists (DElement k :: l1), j, l2; auto|]. inversion Q; subst c'. left. exists [], k, l. auto.
        * intros [(l1 & j & l2 & E & Gj & Tj & N)|(-> & N)].
          -- destruct l1 as [|y l1]; cbn [app] in E; injection E as E1 E2; subst l; [right|left; exists l1, j, l2; auto]. subst j. split; [congruence|exact N].
          -- exfalso. apply (N k c'); auto. left. reflexivity.
      + assert (NT : forall k z, x = DElement k -> get_elementdata d k = Some z -> e_type z <> ET_TextContent).
        { intros k z -> Gk T. cbn [tcb] in B. rewrite Gk, T in B. discriminate. }
        split.
        * intros [(l1 & j & l2 & -> & Q)|(-> & N)]; [left; exists (x :: l1), j, l2; auto|]. right. split; [reflexivity|]. intros j z [E|I] Gj; [apply (NT j z); auto|eapply N; eauto].
        * intros [(l1 & j & l2 & E & Gj & Tj & N)|(-> & N)].
          -- destruct l1 as [|y l1]; cbn [app] in E; injection E as E1 E2; subst l; [exfalso; apply (NT j c); auto|]. left. exists l1, j, l2. auto.
          -- right. split; [reflexivity|]. intros j z I. apply N. right. exact I. }
  rewrite G. split; [intros [Q|(Q & _)]; [exact Q|discriminate]|auto].
Qed.

(* ---------------------------------------------------------------- the parts of a structural element *)
Definition lead_all (s : string) (ps : list (elementdata * string * string)) : string :=
  ((match ps with (c, _, _) :: _ => if contb c then "" else s | [] => "" end) ++ join ps)%string.
Lemma lead_all_cons s c t x ps : lead_all s ((c, t, x) :: ps) = (lead c s t ++ lead_all x ps)%string.
Proof. unfold lead_all, lead. cbn [join]. rewrite <- !str_app_assoc. reflexivity. Qed.
Lemma lead_all_nil ps : lead_all "" ps = join ps.
Proof. unfold lead_all. destruct ps as [|[[c t] s] ps]; [reflexivity|]. destruct (contb c); reflexivity. Qed.
Lemma parts_sound f d a b rt : forall cs st t, parts_loop (text_by_key f d a b false rt) (get_textdelimiter f d rt) st cs = Ok t ->
  exists ps, text_parts d rt cs ps /\ t = (fst st ++ lead_all (snd st) ps)%string.
Proof.
  induction cs as [|c cs IH]; intros [x s] t H; cbn [parts_loop] in H.
  - inversion H; subst. exists []. split; [constructor|]. cbn. rewrite str_app_nil_r. reflexivity.
  - apply rbind_ok in H. destruct H as (st' & P & H). apply IH in H. destruct H as (ps & TP & ->). unfold text_part in P. rewrite text_prev in P.
    rewrite (text_params _ _ _ _ _ 0 0 false) in P. destruct (text_by_key f d 0 0 false rt c None) as [y|er| |] eqn:E; cbn [rbind] in P; try discriminate.
    + destruct (get_textdelimiter f d rt c) as [z| | |] eqn:D; try discriminate.
      * inversion P; subst. exists ((c, y, z) :: ps). split; [constructor; [exists f; exact E|eapply delim_sound, D|exact TP]|]. rewrite lead_all_cons. cbn [fst snd]. rewrite <- str_app_assoc. reflexivity.
      * destruct (delim_nofail f d rt c) as [Q|(q & Q)]; congruence.
    + inversion P; subst. exists ps. split; [apply tp_skip; [exists f, er; exact E|exact TP]|reflexivity].
Qed.
Lemma parts_complete d a b rt : forall cs ps, text_parts d rt cs ps -> exists n, forall f, n <= f -> forall st,
  parts_loop (text_by_key f d a b false rt) (get_textdelimiter f d rt) st cs = Ok (fst st ++ lead_all (snd st) ps)%string.
Proof.
  intros cs ps H. induction H as [|c l t s r Ht Hd H (n & IH)|c l r Hn H (n & IH)].
  - exists 0. intros f _ [x s]. cbn. rewrite str_app_nil_r. reflexivity.
  - apply has_text_ends with (a := a) (b := b) (st := false) in Ht. apply delimiter_ends in Hd. destruct (ends_2 _ _ _ _ Ht Hd) as (m & Q). exists (Nat.max n m). intros f L [x z]. destruct (Q f) as (Q1 & Q2); [lia|].
    cbn [parts_loop]. unfold text_part. rewrite text_prev, Q1, Q2. cbn [rbind]. rewrite IH by lia. cbn [fst snd]. rewrite lead_all_cons, <- str_app_assoc. reflexivity.
  - apply no_text_ends in Hn. destruct Hn as (er & Hn). destruct (Hn a b false) as (m & Q). exists (Nat.max n m). intros f L [x z]. cbn [parts_loop]. unfold text_part. rewrite text_prev, Q by lia. cbn [rbind].
    rewrite IH by lia. reflexivity.
Qed.
Definition plain (e : elementdata) : Prop :=
  p_textcontainer (props (e_type e)) = false /\ p_printable (props (e_type e)) = true /\ p_hidden (props (e_type e)) = false.
Lemma text_plain f d a b st rt e p : resolves d -> plain e -> text_by_key (S f) d a b st rt e p =
  (let? t := parts_loop (text_by_key f d a b false rt) (get_textdelimiter f d rt) ("", "") (srcsb d (e_data e)) in
   let? t := match last_tc d None (e_data e) with
             | Some c => if str_is_empty t then match text_by_key f d a b false rt c None with
                                                | Ok s => Ok s
                                                | Err _ => Ok t
                                                | Panic => Panic
                                                | OutOfFuel => OutOfFuel
                                                end
                         else Ok t
             | None => Ok t
             end in
   if str_is_empty t then Err ENoText else Ok (match p with Some q => q ++ t | None => t end)%string).
Proof.
  intros RS (C & P & Hd). cbn [text_by_key]. cbv zeta. rewrite C, P, Hd. cbn [negb orb]. rewrite children_parts by exact RS. destruct (parts_loop _ _ _ _); reflexivity.
Qed.
Lemma plain_nonempty d rt e t : p_textcontainer (props (e_type e)) = false -> has_text d rt e t -> t <> "".
Proof. intros C (f & H). eapply noncont_nonempty; eauto. Qed.
Lemma emptyb s : str_is_empty s = true <-> s = "".
Proof. destruct s; cbn; split; congruence. Qed.
Lemma emptyb_false s : str_is_empty s = false <-> s <> "".
Proof. destruct s; cbn; split; congruence. Qed.
Lemma plain_has_text d rt e t : resolves d -> plain e ->
  (has_text d rt e t <-> exists cs ps, sources d (e_data e) cs /\ text_parts d rt cs ps /\
    ((join ps <> "" /\ t = join ps) \/
     (join ps = "" /\ t <> "" /\ exists c, last_text_content d (e_data e) c /\ has_text d rt c t))).
Proof.
  intros RS PL. split.
  - intros (f & H). destruct f as [|f]; [discriminate|]. rewrite text_plain in H by assumption. apply rbind_ok in H. destruct H as (y & P & H). apply parts_sound in P. destruct P as (ps & TP & ->).
    cbn [fst snd] in H. rewrite lead_all_nil in H. cbn [String.append] in H. apply rbind_ok in H. destruct H as (z & Q & H). destruct (str_is_empty z) eqn:EZ; [discriminate|]. inversion H; subst z. apply emptyb_false in EZ.
    exists (srcsb d (e_data e)), ps. split; [apply sources_iff; reflexivity|]. split; [exact TP|]. destruct (last_tc d None (e_data e)) as [c|] eqn:LT.
    + destruct (str_is_empty (join ps)) eqn:EJ; [|inversion Q; subst; left; auto]. apply emptyb in EJ. destruct (text_by_key f d 0 0 false rt c None) as [w| | |] eqn:E; inversion Q; subst; [|congruence].
      right. split; [exact EJ|]. split; [exact EZ|]. exists c. split; [apply last_tc_some, LT|]. exists f. exact E.
    + inversion Q; subst. auto.
  - intros (cs & ps & SR & TP & C). apply sources_iff in SR. subst cs. destruct (parts_complete d 0 0 rt _ _ TP) as (n & P).
    destruct C as [(J & ->)|(J & T & c & LT & HT)].
    + exists (S n). rewrite text_plain by assumption. rewrite P by lia. cbn [rbind fst snd]. rewrite lead_all_nil. cbn [String.append]. apply emptyb_false in J. rewrite J. destruct (last_tc _ _ _); cbn [rbind]; rewrite J; reflexivity.
    + apply has_text_ends with (a := 0) (b := 0) (st := false) in HT. destruct HT as (m & HT). exists (S (Nat.max n m)). rewrite text_plain by assumption. rewrite P by lia. cbn [rbind fst snd]. rewrite lead_all_nil, J. cbn [String.append str_is_empty].
      apply last_tc_some in LT. rewrite LT. rewrite HT by lia. cbn [rbind]. apply emptyb_false in T. rewrite T. reflexivity.
Qed.
Lemma plain_no_text d rt e : resolves d -> plain e ->
  (no_text d rt e <-> exists cs ps, sources d (e_data e) cs /\ text_parts d rt cs ps /\ join ps = "" /\
     forall c, last_text_content d (e_data e) c -> has_text d rt c "" \/ no_text d rt c).
Proof.
  intros RS PL. split.
  - intros (f & x & H). destruct f as [|f]; [discriminate|]. rewrite text_plain in H by assumption.
    destruct (parts_loop _ _ _ _) as [y|er| |] eqn:P; cbn [rbind] in H; try discriminate.
    2:{ exfalso. clear - P. revert P. generalize ("", "")%string. generalize (srcsb d (e_data e)). induction l as [|c l IH]; intros st; cbn [parts_loop]; [discriminate|]. destruct st as [t s]. unfold text_part.
        destruct (text_by_key f d 0 0 false rt c (Some s)); cbn [rbind]; try discriminate; [|apply IH]. destruct (delim_nofail f d rt c) as [->|(q & ->)]; cbn [rbind]; [discriminate|apply IH]. }
    apply parts_sound in P. destruct P as (ps & TP & ->). cbn [fst snd] in H. rewrite lead_all_nil in H. cbn [String.append] in H.
    exists (srcsb d (e_data e)), ps. split; [apply sources_iff; reflexivity|]. split; [exact TP|]. destruct (last_tc d None (e_data e)) as [c|] eqn:LT.
    + destruct (str_is_empty (join ps)) eqn:EJ; [|cbn [rbind] in H; rewrite EJ in H; discriminate]. split; [apply emptyb, EJ|]. intros c' LT'. apply last_tc_some in LT'. rewrite LT in LT'. inversion LT'; subst c'.
      destruct (text_by_key f d 0 0 false rt c None) as [w|er| |] eqn:E; cbn [rbind] in H; try discriminate; [|right; exists f, er; exact E].
      destruct (str_is_empty w) eqn:EW; [|discriminate]. apply emptyb in EW. subst w. left. exists f. exact E.
    + cbn [rbind] in H. destruct (str_is_empty (join ps)) eqn:EJ; [|discriminate]. split; [apply emptyb, EJ|]. intros c LT'. apply last_tc_some in LT'. congruence.
  - intros (cs & ps & SR & TP & J & C). apply sources_iff in SR. subst cs. destruct (parts_complete d 0 0 rt _ _ TP) as (n & P). destruct (last_tc d None (e_data e)) as [c|] eqn:LT.
    + destruct (C c) as [HT|NT]; [apply last_tc_some, LT|..].
      * apply has_text_ends with (a := 0) (b := 0) (st := false) in HT. destruct HT as (m & HT). exists (S (Nat.max n m)), ENoText. rewrite text_plain by assumption. rewrite P by lia. cbn [rbind fst snd]. rewrite lead_all_nil, J. cbn [String.append str_is_empty].
        rewrite LT, HT by lia. reflexivity.
      * apply no_text_ends in NT. destruct NT as (er & NT). destruct (NT 0 0 false) as (m & HT). exists (S (Nat.max n m)), ENoText. rewrite text_plain by assumption. rewrite P by lia. cbn [rbind fst snd]. rewrite lead_all_nil, J. cbn [String.append str_is_empty].
        rewrite LT, HT by lia. reflexivity.
    + exists (S n), ENoText. rewrite text_plain by assumption. rewrite P by lia. cbn [rbind fst snd]. rewrite lead_all_nil, J, LT. reflexivity.
Qed.
Lemma silent_no_text d rt e : p_textcontainer (props (e_type e)) = false -> p_printable (props (e_type e)) = false \/ p_hidden (props (e_type e)) = true ->
  no_text d rt e /\ forall t, ~ has_text d rt e t.
Proof.
  intros C H. assert (X : forall f, text_by_key (S f) d 0 0 false rt e None = Err ENoText).
  { intros f. cbn [text_by_key]. cbv zeta. rewrite C. destruct H as [->| ->]; [reflexivity|]. rewrite orb_true_r. reflexivity. }
  split; [exists 1, ENoText; apply X|]. intros t (f & K). destruct f; [discriminate|]. rewrite X in K. discriminate.
Qed.

(* ---------------------------------------------------------------- text containers *)
Lemma eqb_empty acc : String.eqb acc "" = str_is_empty acc.
Proof. destruct acc; reflexivity. Qed.
Lemma container_sound f d rt : forall l acc t, container_loop d (fun c => text_by_key f d 0 0 false rt c None) acc l = Ok t -> flow d rt acc l t.
Proof.
  induction l as [|x l IH]; intros acc t H; cbn [container_loop] in H; [inversion H; subst; constructor|]. destruct x; try (apply flow_other; [discriminate..|auto]).
  - apply flow_text. auto.
  - destruct (get_elementdata d k) as [c|] eqn:G; [|apply flow_missing; auto]. cbv zeta in H. destruct (p_printable (props (e_type c))) eqn:P; [|eapply flow_silent; eauto].
    apply rbind_ok in H. destruct H as (s & E & H). apply (flow_child _ _ _ _ c s); auto; [exists f; exact E|]. apply IH in H. rewrite eqb_empty. destruct (str_is_empty acc) eqn:EA; [exact H|].
    destruct (p_textdelimiter (props (e_type c))); [rewrite <- str_app_assoc|]; exact H.
Qed.
Lemma container_complete d rt : forall acc l t, flow d rt acc l t -> ends (fun f => container_loop d (fun c => text_by_key f d 0 0 false rt c None) acc l) (Ok t).
Proof.
  intros acc l t H. induction H as [acc|acc s r t H (n & IH)|acc k c s r t G P HT H (n & IH)|acc k c r t G P H (n & IH)|acc k r t G H (n & IH)|acc x r t N1 N2 H (n & IH)].
  - exists 0. reflexivity.
  - exists n. intros f L. cbn [container_loop]. auto.
  - apply has_text_ends with (a := 0) (b := 0) (st := false) in HT. destruct HT as (m & HT). exists (Nat.max n m). intros f L. cbn [container_loop]. rewrite G, P. cbv zeta. rewrite HT by lia. cbn [rbind].
    rewrite <- (IH f) by lia. rewrite eqb_empty. destruct (str_is_empty acc); [reflexivity|]. destruct (p_textdelimiter (props (e_type c))); [rewrite str_app_assoc|]; reflexivity.
  - exists n. intros f L. cbn [container_loop]. rewrite G, P. auto.
  - exists n. intros f L. cbn [container_loop]. rewrite G. auto.
  - exists n. intros f L. cbn [container_loop]. destruct x; try apply IH; auto; [destruct (N2 s eq_refl)|destruct (N1 k eq_refl)].
Qed.
Lemma container_has_text d rt e t : p_textcontainer (props (e_type e)) = true -> (has_text d rt e t <-> flow d rt "" (e_data e) t).
Proof.
  intros C. split.
  - intros (f & H). destruct f as [|f]; [discriminate|]. cbn [text_by_key] in H. cbv zeta in H. rewrite C in H. eapply container_sound, H.
  - intros H. apply container_complete in H. destruct H as (n & H). exists (S n). cbn [text_by_key]. cbv zeta. rewrite C. apply H. lia.
Qed.

(* the text of inline markup is the concatenation of its fragments *)
Ltac finv F := inversion F; subst; try congruence; try solve [exfalso; match goal with N : forall k, DElement ?j <> DElement k |- _ => exact (N j eq_refl) end];
  repeat match goal with A : get_elementdata ?d ?k = Some ?x, B : get_elementdata ?d ?k = Some ?y |- _ => rewrite A in B; inversion B; subst; clear B end.
Lemma container_delims t : p_textcontainer (props t) = true -> p_printable (props t) = true /\ (p_textdelimiter (props t) = None \/ p_textdelimiter (props t) = Some "").
Proof.
  assert (X : forallb (fun t => negb (p_textcontainer (props t)) || (p_printable (props t) && match p_textdelimiter (props t) with None | Some "" => true | _ => false end)) all_et = true) by (vm_compute; reflexivity).
  rewrite forallb_forall in X. specialize (X t (in_all_et t)). intros C. rewrite C in X. cbn [negb orb] in X. apply andb_prop in X. destruct X as (X1 & X2). split; [exact X1|].
  destruct (p_textdelimiter (props t)) as [[|]|]; auto; discriminate.
Qed.
Lemma fragments_flow d rt : forall l, inline d l -> forall acc t, flow d rt acc l t <-> exists s, fragments d l s /\ t = (acc ++ s)%string.
Proof.
  intros l H. induction H as [|k c r G P C H1 IH1 H2 IH2|k c r G P H IH|k r G H IH|x r N H IH]; intros acc t.
  - split; [intros F; inversion F; subst; exists ""; split; [constructor|symmetry; apply str_app_nil_r]|]. intros (s & F & ->). inversion F; subst. rewrite str_app_nil_r. constructor.
  - assert (HTX : forall s, has_text d rt c s <-> fragments d (e_data c) s).
    { intros s. rewrite container_has_text by exact C. rewrite IH1. split; [intros (z & F & ->); exact F|intros F; exists s; auto]. }
    assert (DL : forall z, (z ++ (if String.eqb z "" then "" else match p_textdelimiter (props (e_type c)) with Some x => x | None => "" end))%string = z).
    { intros z. destruct (container_delims _ C) as (_ & [->| ->]); destruct (String.eqb z ""); apply str_app_nil_r. }
    split.
    + intros F. finv F. match goal with Q : flow _ _ _ _ _, K : has_text _ _ _ ?s |- _ => rewrite <- str_app_assoc, DL in Q; apply IH2 in Q; destruct Q as (u & F2 & ->); exists (s ++ u)%string end.
      split; [eapply frag_child; eauto; apply HTX; assumption|apply str_app_assoc].
    + intros (s & F & ->). finv F. eapply flow_child; [eassumption|exact P|apply HTX; eassumption|].
      rewrite <- str_app_assoc, DL. apply IH2. eexists. split; [eassumption|]. rewrite str_app_assoc. reflexivity.
  - split.
    + intros F. finv F. match goal with Q : flow _ _ _ _ _ |- _ => apply IH in Q; destruct Q as (s & F2 & ->) end. exists s. split; [eapply frag_silent; eauto|reflexivity].
    + intros (s & F & ->). finv F. eapply flow_silent; eauto. apply IH. eauto.
  - split.
    + intros F. finv F. match goal with Q : flow _ _ _ _ _ |- _ => apply IH in Q; destruct Q as (s & F2 & ->) end. exists s. split; [eapply frag_missing; eauto|reflexivity].
    + intros (s & F & ->). finv F. eapply flow_missing; eauto. apply IH. eauto.
  - split.
    + intros F. inversion F; subst; try solve [exfalso; eapply N; reflexivity]; match goal with Q : flow _ _ _ _ _ |- _ => apply IH in Q; destruct Q as (u & F2 & ->) end.
      * exists (s ++ u)%string. split; [constructor; exact F2|apply str_app_assoc].
      * exists u. split; [apply frag_other; assumption|reflexivity].
    + intros (s & F & ->). inversion F; subst; try solve [exfalso; eapply N; reflexivity].
      * apply flow_text. apply IH. eexists. split; [eassumption|]. symmetry. apply str_app_assoc.
      * apply flow_other; auto. apply IH. eauto.
Qed.

(* ---------------------------------------------------------------- retaining tokenisation *)
Lemma ad_refl a : adds_delimiters a a.
Proof. rewrite <- (str_app_nil_r a). apply ad_same. constructor. Qed.
Lemma ad_app a b a' b' : adds_delimiters a a' -> adds_delimiters b b' -> adds_delimiters (a ++ b)%string (a' ++ b')%string.
Proof.
  intros H K. induction H as [|s x y H IH|t s x y D H IH]; [exact K|..].
  - rewrite !str_app_assoc. apply ad_same, IH.
  - rewrite str_app_assoc. eapply ad_insert; eauto.
Qed.
Definition sim_text (r1 r2 : res string) : Prop :=
  match r1, r2 with
  | Ok a, Ok b => adds_delimiters a b /\ (a = "" <-> b = "")
  | Err x, Err y => x = y
  | Panic, Panic => True
  | OutOfFuel, OutOfFuel => True
  | _, _ => False
  end.
Definition sim_delim (r1 r2 : res string) : Prop :=
  match r1, r2 with
  | Ok a, Ok b => a = b \/ a = "" /\ exists t, p_textdelimiter (props t) = Some b
  | OutOfFuel, OutOfFuel => True
  | _, _ => False
  end.
Lemma sim_refl r : sim_text r r.
Proof. destruct r; cbn; auto. split; [apply ad_refl|tauto]. Qed.
Lemma delim_sim f : forall d e, sim_delim (get_textdelimiter f d false e) (get_textdelimiter f d true e).
Proof.
  induction f as [|f IH]; intros d e; [exact I|]. cbn [get_textdelimiter]. cbv zeta. destruct (p_textdelimiter (props (e_type e))) as [s|] eqn:D.
  - destruct (existsb _ _); [|left; reflexivity]. cbn [orb]. destruct (space_of e); [left; reflexivity|]. right. split; [reflexivity|]. exists (e_type e). exact D.
  - destruct (last_element d (e_data e)); [apply IH|left; reflexivity].
Qed.
Lemma str_app_empty a b : (a ++ b)%string = "" <-> a = "" /\ b = "".
Proof. destruct a; cbn; split; intuition (congruence || auto). Qed.
Lemma container_sim d rec1 rec2 : (forall c, sim_text (rec1 c) (rec2 c)) -> forall l a b, adds_delimiters a b -> (a = "" <-> b = "") ->
  sim_text (container_loop d rec1 a l) (container_loop d rec2 b l).
Proof.
  intros H. induction l as [|x l IH]; intros a b AD EM; cbn [container_loop]; [split; auto|]. destruct x; auto.
  - apply IH; [apply ad_app; [exact AD|apply ad_refl]|]. rewrite !str_app_empty. tauto.
  - destruct (get_elementdata d k) as [c|]; [|auto]. cbv zeta. destruct (p_printable (props (e_type c))); [|auto]. specialize (H c). destruct (rec1 c) as [s1| | |], (rec2 c) as [s2| | |]; cbn in *; try contradiction; auto.
    destruct H as (H1 & H2). assert (EB : str_is_empty a = str_is_empty b).
    { destruct (str_is_empty a) eqn:X, (str_is_empty b) eqn:Y; auto; [apply emptyb in X; apply emptyb_false in Y; tauto|apply emptyb in Y; apply emptyb_false in X; tauto]. }
    rewrite <- EB. destruct (str_is_empty a); [|destruct (p_textdelimiter (props (e_type c)))]; (apply IH; [repeat apply ad_app; auto using ad_refl|rewrite !str_app_empty; tauto]).
Qed.
Lemma parts_sim (rec1 rec2 : elementdata -> option string -> res string) del1 del2 :
  (forall c p q, (p = q \/ p = "" /\ exists t, p_textdelimiter (props t) = Some q) -> sim_text (rec1 c (Some p)) (rec2 c (Some q))) -> (forall c, sim_delim (del1 c) (del2 c)) ->
  forall cs a s b z, adds_delimiters a b -> (a = "" <-> b = "") -> (s = z \/ s = "" /\ exists t, p_textdelimiter (props t) = Some z) ->
  sim_text (parts_loop rec1 del1 (a, s) cs) (parts_loop rec2 del2 (b, z) cs).
Proof.
  intros H K. induction cs as [|c cs IH]; intros a s b z AD EM SZ; cbn [parts_loop]; [split; auto|]. unfold text_part. specialize (H c s z SZ). specialize (K c).
  destruct (rec1 c (Some s)) as [x| | |], (rec2 c (Some z)) as [y| | |]; cbn in H; try contradiction; cbn [rbind]; auto. destruct H as (H1 & H2).
  destruct (del1 c) as [u| | |], (del2 c) as [v| | |]; cbn in K; try contradiction; cbn [rbind]; auto. apply IH; [apply ad_app; auto|rewrite !str_app_empty; tauto|exact K].
Qed.
Lemma text_sim d : resolves d -> forall f e, sim_text (text_by_key f d 0 0 false false e None) (text_by_key f d 0 0 false true e None).
Proof.
  intros RS. induction f as [|f IH]; intros e; [exact I|]. destruct (p_textcontainer (props (e_type e))) eqn:C.
  - cbn [text_by_key]. cbv zeta. rewrite C. apply container_sim; [exact IH|constructor|tauto].
  - destruct (negb (p_printable (props (e_type e))) || p_hidden (props (e_type e))) eqn:V; [cbn [text_by_key]; cbv zeta; rewrite C, V; reflexivity|]. apply orb_false_iff in V. destruct V as (V1 & V2). apply negb_false_iff in V1.
    assert (PL : plain e) by (split; auto). rewrite !text_plain by assumption.
    assert (PS : sim_text (parts_loop (text_by_key f d 0 0 false false) (get_textdelimiter f d false) ("", "")%string (srcsb d (e_data e)))
                          (parts_loop (text_by_key f d 0 0 false true) (get_textdelimiter f d true) ("", "")%string (srcsb d (e_data e)))).
    { apply parts_sim; [|intros c; apply delim_sim|constructor|tauto|auto]. intros c p q PQ. rewrite !text_prev. specialize (IH c).
      destruct (text_by_key f d 0 0 false false c None) as [x| | |] eqn:E1, (text_by_key f d 0 0 false true c None) as [y| | |] eqn:E2; cbn in IH; try contradiction; cbn [rbind]; auto.
      destruct IH as (I1 & I2). unfold lead, sim_text. destruct (contb c) eqn:CB; [split; auto|]. pose proof (noncont_nonempty _ _ _ _ _ _ _ _ CB E1). pose proof (noncont_nonempty _ _ _ _ _ _ _ _ CB E2).
      split; [|rewrite !str_app_empty; tauto]. destruct PQ as [->|(-> & t & Q)]; [apply ad_same, I1|]. cbn [String.append]. eapply ad_insert; eauto. }
    destruct (parts_loop (text_by_key f d 0 0 false false) _ _ _) as [a| | |], (parts_loop (text_by_key f d 0 0 false true) _ _ _) as [b| | |]; cbn in PS; try contradiction; cbn [rbind]; auto.
    destruct PS as (AD & EM). assert (EB : str_is_empty a = str_is_empty b).
    { destruct (str_is_empty a) eqn:X, (str_is_empty b) eqn:Y; auto; [apply emptyb in X; apply emptyb_false in Y; tauto|apply emptyb in Y; apply emptyb_false in X; tauto]. }
    destruct (last_tc d None (e_data e)) as [c|]; [|cbn [rbind]; rewrite <- EB; destruct (str_is_empty a); cbn; auto]. rewrite <- EB. destruct (str_is_empty a) eqn:EA; [|cbn [rbind]; rewrite <- EB, EA; cbn; auto].
    specialize (IH c). destruct (text_by_key f d 0 0 false false c None) as [x| | |], (text_by_key f d 0 0 false true c None) as [y| | |]; cbn in IH; try contradiction; cbn [rbind]; auto.
    + destruct IH as (I1 & I2). destruct (str_is_empty x) eqn:X, (str_is_empty y) eqn:Y; cbn; auto; [apply emptyb in X; apply emptyb_false in Y; tauto|apply emptyb in Y; apply emptyb_false in X; tauto].
    + rewrite <- EB, EA. reflexivity.
Qed.
Lemma delim_spaced f d : (forall k e, get_elementdata d k = Some e -> space_of e = true) -> forall e, space_of e = true -> get_textdelimiter f d false e = get_textdelimiter f d true e.
Proof.
  intros SP. induction f as [|f IH]; intros e S; [reflexivity|]. cbn [get_textdelimiter]. cbv zeta. destruct (p_textdelimiter _); [rewrite S; reflexivity|]. destruct (last_element d (e_data e)) as [c|] eqn:L; [|reflexivity].
  apply IH. apply last_element_some in L. destruct L as (l1 & k & l2 & _ & G & _). eauto.
Qed.
Lemma srcsb_stored d : forall l c, In c (srcsb d l) -> exists k, get_elementdata d k = Some c.
Proof.
  induction l as [|x l IH]; intros c; cbn [srcsb]; [intros []|]. destruct (srcb d x) as [y|] eqn:E; [|apply IH]. intros [->|I]; [|apply IH, I]. unfold srcb in E. destruct x; try discriminate.
  destruct (get_elementdata d k) as [z|] eqn:G; [|discriminate]. destruct (text_child _); [inversion E; subst; eauto|]. destruct (et_eqb _ _); [|discriminate]. unfold target in E. destruct (e_idref z); [|discriminate].
  destruct (get_element_key_by_id _ _); [eauto|discriminate].
Qed.
Lemma parts_ext rec rec' del del' : forall cs st, (forall c p, In c cs -> rec c p = rec' c p) -> (forall c, In c cs -> del c = del' c) -> parts_loop rec del st cs = parts_loop rec' del' st cs.
Proof.
  induction cs as [|c cs IH]; intros [t s] H K; cbn [parts_loop]; [reflexivity|]. unfold text_part. rewrite H, K by (left; reflexivity).
  destruct (rec' c (Some s)); cbn [rbind]; try reflexivity; [destruct (del' c); cbn [rbind]; try reflexivity|]; apply IH; intros; (apply H || apply K); right; assumption.
Qed.
Lemma text_spaced d : resolves d -> (forall k e, get_elementdata d k = Some e -> space_of e = true) ->
  forall f e p, text_by_key f d 0 0 false false e p = text_by_key f d 0 0 false true e p.
Proof.
  intros RS SP. induction f as [|f IH]; intros e p; [reflexivity|]. destruct (p_textcontainer (props (e_type e))) eqn:C.
  - cbn [text_by_key]. cbv zeta. rewrite C. apply container_ext. intros c. apply IH.
  - destruct (negb (p_printable (props (e_type e))) || p_hidden (props (e_type e))) eqn:V; [cbn [text_by_key]; cbv zeta; rewrite C, V; reflexivity|]. apply orb_false_iff in V. destruct V as (V1 & V2). apply negb_false_iff in V1.
    assert (PL : plain e) by (split; auto). rewrite !text_plain by assumption.
    rewrite (parts_ext _ (text_by_key f d 0 0 false true) _ (get_textdelimiter f d true)).
    2:{ intros; apply IH. }
    2:{ intros c I. apply delim_spaced; [exact SP|]. apply srcsb_stored in I. destruct I as (k & G). eauto. }
    destruct (parts_loop _ _ _ _); cbn [rbind]; try reflexivity. destruct (last_tc _ _ _); [rewrite IH|]; reflexivity.
Qed.

(* ---------------------------------------------------------------- no panic, termination *)
Lemma container_np d rec : (forall c, rec c <> Panic) -> forall l acc, container_loop d rec acc l <> Panic.
Proof.
  intros H. induction l as [|x l IH]; intros acc; cbn [container_loop]; [discriminate|]. destruct x; auto. destruct (get_elementdata d k) as [c|]; [|auto]. cbv zeta. destruct (p_printable _); [|auto].
  specialize (H c). destruct (rec c); cbn [rbind]; try congruence; auto.
Qed.
Lemma parts_np rec del : (forall c p, rec c p <> Panic) -> (forall c, del c <> Panic) -> forall l st, parts_loop rec del st l <> Panic.
Proof.
  intros H K. induction l as [|c l IH]; intros [t s]; cbn [parts_loop]; [discriminate|]. unfold text_part. specialize (H c (Some s)). specialize (K c). destruct (rec c (Some s)); cbn [rbind]; try congruence; auto.
  destruct (del c); cbn [rbind]; try congruence; auto.
Qed.
Lemma text_np d a b st rt : resolves d -> forall f e p, text_by_key f d a b st rt e p <> Panic.
Proof.
  intros RS. revert st. intros st f. revert st. induction f as [|f IH]; intros st e p; [discriminate|]. destruct (p_textcontainer (props (e_type e))) eqn:C.
  - cbn [text_by_key]. cbv zeta. rewrite C. apply container_np. intros; apply IH.
  - destruct (negb (p_printable (props (e_type e))) || p_hidden (props (e_type e))) eqn:V; [cbn [text_by_key]; cbv zeta; rewrite C, V; discriminate|]. apply orb_false_iff in V. destruct V as (V1 & V2). apply negb_false_iff in V1.
    assert (PL : plain e) by (split; auto). rewrite text_plain by assumption.
    pose proof (parts_np (text_by_key f d a b false rt) (get_textdelimiter f d rt) (IH false)) as Q.
    assert (DN : forall c, get_textdelimiter f d rt c <> Panic) by (intros c; destruct (delim_nofail f d rt c) as [->|(q & ->)]; discriminate).
    specialize (Q DN (srcsb d (e_data e)) ("", "")%string). destruct (parts_loop _ _ _ _) as [t| | |]; cbn [rbind]; try congruence.
    destruct (last_tc _ _ _) as [c|]; [|cbn [rbind]; destruct (str_is_empty t); discriminate]. destruct (str_is_empty t) eqn:ET; [|cbn [rbind]; rewrite ET; discriminate].
    specialize (IH false c None). destruct (text_by_key f d a b false rt c None) as [s| | |]; cbn [rbind]; try congruence; [destruct (str_is_empty s); discriminate|rewrite ET; discriminate].
Qed.
Lemma settles_S {A} (g : nat -> res A) : settles (fun f => g (S f)) -> settles g.
Proof. intros (n & v & V & H). exists (S n), v. split; [exact V|]. intros [|f] L; [lia|]. apply H. lia. Qed.
Lemma settles_ext {A} (f g : nat -> res A) : (forall n, f n = g n) -> settles f -> settles g.
Proof. intros E (n & v & V & H). exists n, v. split; [exact V|]. intros m L. rewrite <- E. auto. Qed.
Lemma container_settles d (rec : nat -> elementdata -> res string) : forall l acc, (forall k c, In (DElement k) l -> get_elementdata d k = Some c -> settles (fun f => rec f c)) ->
  settles (fun f => container_loop d (rec f) acc l).
Proof.
  induction l as [|x l IH]; intros acc H; cbn [container_loop]; [apply settles_const; discriminate|].
  assert (HL : forall k c, In (DElement k) l -> get_elementdata d k = Some c -> settles (fun f => rec f c)) by (intros; eapply H; [right|]; eassumption).
  destruct x; auto. destruct (get_elementdata d k) as [c|] eqn:G; [|auto]. cbv zeta. destruct (p_printable _); [|auto].
  apply (settles_bind (fun f => rec f c)); [eapply H; [left; reflexivity|exact G]|]. intros a n _. apply IH, HL.
Qed.
Lemma parts_settles (rec : nat -> elementdata -> option string -> res string) del : forall cs st, (forall c p, In c cs -> settles (fun f => rec f c p)) -> (forall c, In c cs -> settles (fun f => del f c)) ->
  settles (fun f => parts_loop (rec f) (del f) st cs).
Proof.
  induction cs as [|c cs IH]; intros [t s] H K; cbn [parts_loop]; [apply settles_const; discriminate|]. apply settles_bind.
  - unfold text_part. destruct (H c (Some s) (or_introl eq_refl)) as (n & v & V & Q), (K c (or_introl eq_refl)) as (m & w & W & R).
    exists (Nat.max n m), (match v with Ok part => match w with Ok s => Ok (t ++ part, s) | Err _ => Ok (t ++ part, s) | Panic => Panic | OutOfFuel => OutOfFuel end | Err _ => Ok (t, s) | Panic => Panic | OutOfFuel => OutOfFuel end)%string.
    split; [destruct v; try congruence; destruct w; congruence|]. intros f L. rewrite Q, R by lia. reflexivity.
  - intros a n _. apply IH; intros; (apply H || apply K); right; assumption.
Qed.
Lemma srcsb_feeds d p pe : get_elementdata d p = Some pe -> forall l c, incl l (e_data pe) -> In c (srcsb d l) -> exists k, get_elementdata d k = Some c /\ feeds d k p.
Proof.
  intros GP. induction l as [|x l IH]; intros c IN; cbn [srcsb]; [intros []|]. assert (IL : incl l (e_data pe)) by (intros z Z; apply IN; right; exact Z). assert (IX : In x (e_data pe)) by (apply IN; left; reflexivity).
  destruct (srcb d x) as [y|] eqn:E; [|apply IH; exact IL]. intros [->|I]; [|apply IH; auto]. unfold srcb in E. destruct x; try discriminate.
  destruct (get_elementdata d k) as [z|] eqn:G; [|discriminate]. destruct (text_child _); [inversion E; subst; exists k; split; [exact G|eapply feeds_child; eauto]|].
  destruct (et_eqb_spec (e_type z) ET_WordReference) as [T|]; [|discriminate]. unfold target in E. destruct (e_idref z) as [id|] eqn:R; [|discriminate].
  destruct (get_element_key_by_id d id) as [j|] eqn:J; [|discriminate]. exists j. split; [exact E|]. eapply feeds_ref; eauto.
Qed.
Lemma acc_settles d rt : resolves d -> forall k, Acc (feeds d) k -> forall e, get_elementdata d k = Some e ->
  (forall a b st p, settles (fun f => text_by_key f d a b st rt e p)) /\ settles (fun f => get_textdelimiter f d rt e).
Proof.
  intros RS. induction 1 as [k _ IH]. intros e G.
  assert (IHT : forall j c, feeds d j k -> get_elementdata d j = Some c -> forall a b st p, settles (fun f => text_by_key f d a b st rt c p)) by (intros j c F Gj; apply (IH j F c Gj)).
  assert (IHD : forall j c, feeds d j k -> get_elementdata d j = Some c -> settles (fun f => get_textdelimiter f d rt c)) by (intros j c F Gj; apply (IH j F c Gj)).
  split.
  - intros a b st p. apply settles_S. destruct (p_textcontainer (props (e_type e))) eqn:C.
    + apply settles_ext with (f := fun f => container_loop d (fun c => text_by_key f d a b st rt c None) "" (e_data e)); [intros f; cbn [text_by_key]; cbv zeta; rewrite C; reflexivity|].
      apply (container_settles d (fun f c => text_by_key f d a b st rt c None)). intros j c I Gj. apply (IHT j c); [eapply feeds_child; eauto|exact Gj].
    + destruct (negb (p_printable (props (e_type e))) || p_hidden (props (e_type e))) eqn:V.
      { apply settles_ext with (f := fun _ => Err ENoText); [intros f; cbn [text_by_key]; cbv zeta; rewrite C, V; reflexivity|]. apply settles_const. discriminate. }
      apply orb_false_iff in V. destruct V as (V1 & V2). apply negb_false_iff in V1. assert (PL : plain e) by (split; auto).
      eapply settles_ext; [intros f; symmetry; apply text_plain; assumption|]. apply settles_bind.
      * apply (parts_settles (fun f => text_by_key f d a b false rt) (fun f => get_textdelimiter f d rt)); intros c *.
        -- intros I. destruct (srcsb_feeds d k e G _ _ (incl_refl _) I) as (j & Gj & F). eapply IHT; eauto.
        -- intros I. destruct (srcsb_feeds d k e G _ _ (incl_refl _) I) as (j & Gj & F). eapply IHD; eauto.
      * intros t n _. apply settles_bind; [|intros s m _; apply settles_const; destruct (str_is_empty s); discriminate].
        destruct (last_tc d None (e_data e)) as [c|] eqn:LT; [|apply settles_const; discriminate]. destruct (str_is_empty t); [|apply settles_const; discriminate].
        apply last_tc_some in LT. destruct LT as (l1 & j & l2 & E & Gj & _). destruct (IHT j c) with (a := a) (b := b) (st := false) (p := @None string) as (m & v & V & Q); [eapply feeds_child; [exact G|rewrite E; apply in_app_iff; right; left; reflexivity]|exact Gj|].
        exists m, (match v with Ok s => Ok s | Err _ => Ok t | Panic => Panic | OutOfFuel => OutOfFuel end). split; [destruct v; congruence|]. intros f L. rewrite Q by lia. reflexivity.
  - apply settles_S. cbn [get_textdelimiter]. cbv zeta. destruct (p_textdelimiter _) as [s|]; [apply settles_const; destruct (existsb _ _); [destruct (_ || _)|]; discriminate|].
    destruct (last_element d (e_data e)) as [c|] eqn:L; [|apply settles_const; discriminate]. apply last_element_some in L. destruct L as (l1 & j & l2 & E & Gj & _). apply (IHD j c); [|exact Gj].
    eapply feeds_child; [exact G|rewrite E; apply in_app_iff; right; left; reflexivity].
Qed.
(* an acyclic relation whose right-hand sides are bounded is well founded *)
Lemma acyclic_acc (R : nat -> nat -> Prop) n : (forall x y, R x y -> y < n) -> (forall k, ~ clos_trans nat R k k) -> forall k, Acc R k.
Proof.
  intros B AC. assert (X : forall m path k, n - length path <= m -> NoDup path -> (forall x, In x path -> x < n /\ clos_trans nat R k x) -> Acc R k).
  { induction m as [|m IH]; intros path k L ND P; constructor; intros c Rc.
    - exfalso. assert (NI : ~ In k path) by (intros I; destruct (P k I) as (_ & Q); exact (AC k Q)).
      assert (Len : length (k :: path) <= length (seq 0 n)).
      { apply NoDup_incl_length; [constructor; assumption|]. intros x [<-|I]; apply in_seq; [apply B in Rc; lia|destruct (P x I); lia]. }
      rewrite seq_length in Len. cbn [length] in Len. lia.
    - assert (NI : ~ In k path) by (intros I; destruct (P k I) as (_ & Q); exact (AC k Q)).
      assert (Len : length (k :: path) <= length (seq 0 n)).
      { apply NoDup_incl_length; [constructor; assumption|]. intros x [<-|I]; apply in_seq; [apply B in Rc; lia|destruct (P x I); lia]. }
      rewrite seq_length in Len. cbn [length] in Len.
      apply (IH (k :: path)); [cbn [length]; lia|constructor; assumption|]. intros x [<-|I]; [split; [eapply B, Rc|apply t_step, Rc]|]. destruct (P x I) as (Q1 & Q2). split; [exact Q1|]. eapply t_trans; [apply t_step, Rc|exact Q2]. }
  intros k. apply (X n [] k); [cbn; lia|constructor|intros x []].
Qed.
Lemma feeds_bound d x y : feeds d x y -> y < length (st_items (doc_elements d)).
Proof.
  intros H. assert (exists e, get_elementdata d y = Some e) as (e & G) by (destruct H; eauto). unfold get_elementdata, st_get in G. destruct (nth_error (st_items (doc_elements d)) y) as [[z|]|] eqn:N; try discriminate.
  apply nth_error_Some. congruence.
Qed.
Lemma text_returns d rt k e a b st p : resolves d -> text_acyclic d -> get_elementdata d k = Some e ->
  exists v, (v <> OutOfFuel /\ v <> Panic) /\ ends (fun f => text_by_key f d a b st rt e p) v.
Proof.
  intros RS AC G. destruct (acc_settles d rt RS k) with (e := e) as (H & _); [apply (acyclic_acc _ _ (feeds_bound d)), AC|exact G|]. destruct (H a b st p) as (n & v & V & Q). exists v. split; [|exists n; exact Q].
  split; [exact V|]. rewrite <- (Q n (le_n n)). apply text_np, RS.
Qed.

(* ---------------------------------------------------------------- elements that are not printed *)
Lemma silent_types t : silent t = true -> p_textcontainer (props t) = false /\ (p_printable (props t) = false \/ p_hidden (props t) = true) /\ t <> ET_TextContent /\ t <> ET_WordReference.
Proof.
  assert (X : forallb (fun t => negb (silent t) || (negb (p_textcontainer (props t)) && negb (et_eqb t ET_TextContent))) all_et = true) by (vm_compute; reflexivity).
  rewrite forallb_forall in X. specialize (X t (in_all_et t)). intros C. rewrite C in X. cbn [negb orb] in X. apply andb_prop in X. destruct X as (X1 & X2). apply negb_true_iff in X1.
  unfold silent in C. apply andb_prop in C. destruct C as (C1 & C2). split; [exact X1|]. split.
  - apply orb_prop in C1. destruct C1 as [C1|C1]; [left; apply negb_true_iff, C1|right; exact C1].
  - destruct (et_eqb_spec t ET_TextContent), (et_eqb_spec t ET_WordReference); try discriminate; auto.
Qed.
Lemma text_parts_drop d rt c cs1 cs2 ps : no_text d rt c -> (forall t, ~ has_text d rt c t) -> (text_parts d rt (cs1 ++ c :: cs2) ps <-> text_parts d rt (cs1 ++ cs2) ps).
Proof.
  intros N H. revert ps. induction cs1 as [|x cs1 IH]; intros ps; cbn [app].
  - split; [intros T; inversion T; subst; [exfalso; eapply H; eassumption|assumption]|apply tp_skip, N].
  - split; intros T; inversion T; subst; (apply tp_take || apply tp_skip); auto; apply IH; assumption.
Qed.
Lemma srcsb_filter d rt ps : forall l cs1, text_parts d rt (cs1 ++ srcsb d l) ps <-> text_parts d rt (cs1 ++ srcsb d (filter (fun x => negb (silent_item d x)) l)) ps.
Proof.
  induction l as [|x l IH]; intros cs1; cbn [srcsb filter]; [reflexivity|]. destruct (silent_item d x) eqn:S; cbn [negb].
  - unfold silent_item in S. destruct x; try discriminate. cbn [srcb]. destruct (get_elementdata d k) as [c|] eqn:G; [|discriminate]. destruct (silent_types _ S) as (C & PH & NT & NW).
    destruct (text_child (e_type c)).
    + destruct (silent_no_text d rt c C PH) as (N1 & N2). rewrite text_parts_drop by assumption. apply IH.
    + destruct (et_eqb_spec (e_type c) ET_WordReference); [contradiction|apply IH].
  - cbn [srcsb]. destruct (srcb d x) as [c|]; [|apply IH]. specialize (IH (cs1 ++ [c])). rewrite <- !app_assoc in IH. exact IH.
Qed.
Lemma last_tc_filter d : forall l o, last_tc d o (filter (fun x => negb (silent_item d x)) l) = last_tc d o l.
Proof.
  induction l as [|x l IH]; intros o; cbn [filter last_tc]; [reflexivity|]. destruct (silent_item d x) eqn:S; cbn [negb last_tc]; [|apply IH].
  unfold silent_item in S. destruct x; try discriminate. cbn [tcb]. destruct (get_elementdata d k) as [c|] eqn:G; [|discriminate]. destruct (silent_types _ S) as (C & PH & NT & NW).
  destruct (et_eqb_spec (e_type c) ET_TextContent); [contradiction|apply IH].
Qed.
Lemma without_silent_text d rt e t : resolves d -> p_textcontainer (props (e_type e)) = false -> (has_text d rt e t <-> has_text d rt (without_silent d e) t).
Proof.
  intros RS C. destruct (negb (p_printable (props (e_type e))) || p_hidden (props (e_type e))) eqn:V.
  - assert (PH : p_printable (props (e_type e)) = false \/ p_hidden (props (e_type e)) = true) by (apply orb_prop in V; destruct V as [V|V]; [left; apply negb_true_iff, V|auto]).
    split; intros H; exfalso; [apply (proj2 (silent_no_text d rt e C PH) t H)|apply (proj2 (silent_no_text d rt (without_silent d e) C PH) t H)].
  - apply orb_false_iff in V. destruct V as (V1 & V2). apply negb_false_iff in V1. assert (PL : plain e) by (split; auto). assert (PL' : plain (without_silent d e)) by (split; auto).
    rewrite !plain_has_text by assumption. change (e_data (without_silent d e)) with (filter (fun x => negb (silent_item d x)) (e_data e)).
    assert (LT : forall c, last_text_content d (filter (fun x => negb (silent_item d x)) (e_data e)) c <-> last_text_content d (e_data e) c) by (intros c; rewrite <- !last_tc_some, last_tc_filter; reflexivity).
    split; intros (cs & ps & S & TP & Q); apply sources_iff in S; subst cs; eexists; exists ps; (split; [apply sources_iff; reflexivity|]);
      (split; [apply (srcsb_filter d rt ps (e_data e) []); exact TP|]); (destruct Q as [Q|(Q1 & Q2 & c & Q3 & Q4)]; [left; exact Q|right; split; [exact Q1|split; [exact Q2|exists c; split; [apply LT, Q3|exact Q4]]]]).
Qed.

(* all silent children of all elements dropped *)
Record pruned (d d' : document) : Prop := mkPruned {
  pr_elements : forall k, get_elementdata d' k = option_map (without_silent d) (get_elementdata d k);
  pr_ids : forall id, get_element_key_by_id d' id = get_element_key_by_id d id }.
Definition no_hidden_in_text (d : document) : Prop := forall k e j c, get_elementdata d k = Some e -> p_textcontainer (props (e_type e)) = true ->
  In (DElement j) (e_data e) -> get_elementdata d j = Some c -> p_hidden (props (e_type c)) = false.
Definition no_silent_last (d : document) : Prop := forall k e c, get_elementdata d k = Some e -> p_textdelimiter (props (e_type e)) = None ->
  last_child d (e_data e) c -> silent (e_type c) = false.
Section Pruned.
  Context (d d' : document) (rt : bool) (RS : resolves d) (PR : pruned d d') (NH : no_hidden_in_text d) (NL : no_silent_last d).
  Notation ws := (without_silent d).
  Notation keep := (filter (fun x => negb (silent_item d x))).
  Definition stored (e : elementdata) : Prop := exists k, get_elementdata d k = Some e.
  Lemma target_pruned c : target d' (ws c) = option_map ws (target d c).
  Proof. unfold target. change (e_idref (ws c)) with (e_idref c). destruct (e_idref c) as [id|]; [|reflexivity]. rewrite (pr_ids _ _ PR). destruct (get_element_key_by_id d id); [apply PR|reflexivity]. Qed.
  Lemma pruned_resolves : resolves d'.
  Proof.
    intros c. pose proof (RS c) as H. unfold r_resolve, target in *. destruct (e_idref c) as [id|]; [|reflexivity]. unfold get_elementdata_by_id, st_get_by_id in *.
    pose proof (pr_ids _ _ PR id) as I. unfold get_element_key_by_id in *. rewrite I. destruct (st_id_to_key (doc_elements d) id) as [k|]; [|reflexivity].
    pose proof (pr_elements _ _ PR k) as E. unfold get_elementdata in *. rewrite E. destruct (st_get (doc_elements d) k); [reflexivity|discriminate].
  Qed.
  Lemma srcb_pruned x : silent_item d x = false -> srcb d' x = option_map ws (srcb d x).
  Proof.
    intros _. destruct x; try reflexivity. cbn [srcb]. rewrite (pr_elements _ _ PR). destruct (get_elementdata d k) as [c|]; [|reflexivity]. cbn [option_map]. change (e_type (ws c)) with (e_type c).
    destruct (text_child (e_type c)); [reflexivity|]. destruct (et_eqb (e_type c) ET_WordReference); [apply target_pruned|reflexivity].
  Qed.
  Lemma last_tc_pruned : forall l o, last_tc d' (option_map ws o) l = option_map ws (last_tc d o l).
  Proof.
    induction l as [|x l IH]; intros o; cbn [last_tc]; [reflexivity|]. rewrite <- IH. f_equal. destruct x; try reflexivity. cbn [tcb]. rewrite (pr_elements _ _ PR). destruct (get_elementdata d k) as [c|]; [|reflexivity].
    cbn [option_map]. change (e_type (ws c)) with (e_type c). destruct (et_eqb _ _); reflexivity.
  Qed.
  Lemma last_element_keep l c : last_element d l = Some c -> silent (e_type c) = false -> last_element d (keep l) = Some c.
  Proof.
    intros H S. apply last_element_some in H. apply last_element_some. destruct H as (l1 & k & l2 & -> & G & N). exists (keep l1), k, (keep l2). split.
    { rewrite filter_app. cbn [filter silent_item]. rewrite G, S. reflexivity. }
    split; [exact G|]. intros j I. apply filter_In in I. apply N, I.
  Qed.
  Lemma last_element_keep_none l : last_element d l = None -> last_element d (keep l) = None.
  Proof. rewrite !last_element_none. intros H k I. apply filter_In in I. apply H, I. Qed.
  Lemma last_element_pruned : forall l, last_element d' l = option_map ws (last_element d l).
  Proof.
    induction l as [|x l IH]; cbn [last_element]; [reflexivity|]. rewrite IH. destruct (last_element d l); [reflexivity|]. cbn [option_map]. destruct x; try reflexivity. apply PR.
  Qed.
  Lemma delim_pruned f : forall e, stored e -> get_textdelimiter f d' rt (ws e) = get_textdelimiter f d rt e.
  Proof.
    induction f as [|f IH]; intros e (k & G); [reflexivity|]. cbn [get_textdelimiter]. cbv zeta. change (e_type (ws e)) with (e_type e). change (space_of (ws e)) with (space_of e).
    destruct (p_textdelimiter (props (e_type e))) eqn:D; [reflexivity|]. change (e_data (ws e)) with (keep (e_data e)). rewrite last_element_pruned.
    destruct (last_element d (e_data e)) as [c|] eqn:L.
    - assert (LC := L). apply last_element_some in LC. rewrite (last_element_keep _ c L) by (eapply NL; eauto). cbn [option_map]. apply IH. destruct LC as (l1 & j & l2 & _ & Gj & _). exists j. exact Gj.
    - rewrite last_element_keep_none by exact L. reflexivity.
  Qed.
  Lemma srcb_stored x c : srcb d x = Some c -> stored c.
  Proof. intros E. destruct (srcsb_stored d [x] c) as (k & G); [cbn [srcsb]; rewrite E; left; reflexivity|exists k; exact G]. Qed.
  Lemma silent_text f c p : silent (e_type c) = true -> text_by_key (S f) d 0 0 false rt c p = Err ENoText.
  Proof.
    intros S. destruct (silent_types _ S) as (C & PH & _). cbn [text_by_key]. cbv zeta. rewrite C. destruct PH as [->| ->]; [reflexivity|]. rewrite orb_true_r. reflexivity.
  Qed.
  Lemma parts_fwd f : (forall c p, stored c -> below (text_by_key f d 0 0 false rt c p) (text_by_key f d' 0 0 false rt (ws c) p)) ->
    forall l st, below (parts_loop (text_by_key f d 0 0 false rt) (get_textdelimiter f d rt) st (srcsb d l)) (parts_loop (text_by_key f d' 0 0 false rt) (get_textdelimiter f d' rt) st (srcsb d' (keep l))).
  Proof.
    intros H. induction l as [|x l IH]; intros st; cbn [srcsb filter parts_loop]; [apply below_refl|]. destruct (silent_item d x) eqn:S; cbn [negb].
    - unfold silent_item in S. destruct x; try discriminate. cbn [srcb]. destruct (get_elementdata d k) as [c|] eqn:G; [|discriminate]. destruct (silent_types _ S) as (C & PH & NT & NW).
      destruct (text_child (e_type c)); [|destruct (et_eqb_spec (e_type c) ET_WordReference); [contradiction|apply IH]]. cbn [parts_loop]. destruct f as [|f]; [destruct st; left; reflexivity|].
      destruct st as [t s]. unfold text_part. rewrite silent_text by exact S. cbn [rbind]. apply IH.
    - cbn [srcsb]. rewrite srcb_pruned by exact S. destruct (srcb d x) as [c|] eqn:E; cbn [option_map]; [|apply IH]. cbn [parts_loop]. apply srcb_stored in E. apply below_bind; [|intros; apply IH].
      unfold text_part. destruct st as [t s]. rewrite delim_pruned by exact E. destruct (H c (Some s) E) as [-> | ->]; [left; reflexivity|]. apply below_refl.
  Qed.
  Lemma parts_bwd f : (forall c p, stored c -> below (text_by_key f d' 0 0 false rt (ws c) p) (text_by_key (S f) d 0 0 false rt c p)) ->
    forall l st, below (parts_loop (text_by_key f d' 0 0 false rt) (get_textdelimiter f d' rt) st (srcsb d' (keep l))) (parts_loop (text_by_key (S f) d 0 0 false rt) (get_textdelimiter (S f) d rt) st (srcsb d l)).
  Proof.
    intros H. induction l as [|x l IH]; intros st; cbn [srcsb filter parts_loop]; [apply below_refl|]. destruct (silent_item d x) eqn:S; cbn [negb].
    - unfold silent_item in S. destruct x; try discriminate. cbn [srcb]. destruct (get_elementdata d k) as [c|] eqn:G; [|discriminate]. destruct (silent_types _ S) as (C & PH & NT & NW).
      destruct (text_child (e_type c)); [|destruct (et_eqb_spec (e_type c) ET_WordReference); [contradiction|apply IH]]. cbn [parts_loop].
      destruct st as [t s]. unfold text_part. rewrite silent_text by exact S. cbn [rbind]. apply IH.
    - cbn [srcsb]. rewrite srcb_pruned by exact S. destruct (srcb d x) as [c|] eqn:E; cbn [option_map]; [|apply IH]. cbn [parts_loop]. apply srcb_stored in E. apply below_bind; [|intros; apply IH].
      unfold text_part. destruct st as [t s]. destruct (H c (Some s) E) as [-> | ->]; [left; reflexivity|]. destruct (text_by_key f d' 0 0 false rt (ws c) (Some s)); try apply below_refl.
      rewrite delim_pruned by exact E. destruct (delim_S f d rt c) as [-> | ->]; [left; reflexivity|apply below_refl].
  Qed.
  Lemma container_fwd rec rec' : (forall c, stored c -> below (rec c) (rec' (ws c))) -> forall e, stored e -> p_textcontainer (props (e_type e)) = true ->
    forall l, incl l (e_data e) -> forall acc, below (container_loop d rec acc l) (container_loop d' rec' acc (keep l)).
  Proof.
    intros H e (ke & Ge) C. induction l as [|x l IH]; intros IN acc; cbn [container_loop filter]; [apply below_refl|]. assert (IL : incl l (e_data e)) by (intros z Z; apply IN; right; exact Z).
    destruct (silent_item d x) eqn:S; cbn [negb].
    - unfold silent_item in S. destruct x; try discriminate. destruct (get_elementdata d k) as [c|] eqn:G; [|discriminate]. cbv zeta. destruct (silent_types _ S) as (_ & [->|PH] & _ & _); [apply IH, IL|].
      exfalso. rewrite (NH ke e k c) in PH; auto; [discriminate|]. apply IN. left. reflexivity.
    - cbn [container_loop]. destruct x; try (apply IH, IL). rewrite (pr_elements _ _ PR). destruct (get_elementdata d k) as [c|] eqn:G; cbn [option_map]; [|apply IH, IL]. cbv zeta. change (e_type (ws c)) with (e_type c).
      destruct (p_printable _); [|apply IH, IL]. apply below_bind; [apply H; exists k; exact G|]. intros a. apply IH, IL.
  Qed.
  Lemma container_bwd rec rec' : (forall c, stored c -> below (rec' (ws c)) (rec c)) -> forall e, stored e -> p_textcontainer (props (e_type e)) = true ->
    forall l, incl l (e_data e) -> forall acc, below (container_loop d' rec' acc (keep l)) (container_loop d rec acc l).
  Proof.
    intros H e (ke & Ge) C. induction l as [|x l IH]; intros IN acc; cbn [container_loop filter]; [apply below_refl|]. assert (IL : incl l (e_data e)) by (intros z Z; apply IN; right; exact Z).
    destruct (silent_item d x) eqn:S; cbn [negb].
    - unfold silent_item in S. destruct x; try discriminate. destruct (get_elementdata d k) as [c|] eqn:G; [|discriminate]. cbv zeta. destruct (silent_types _ S) as (_ & [->|PH] & _ & _); [apply IH, IL|].
      exfalso. rewrite (NH ke e k c) in PH; auto; [discriminate|]. apply IN. left. reflexivity.
    - cbn [container_loop]. destruct x; try (apply IH, IL). rewrite (pr_elements _ _ PR). destruct (get_elementdata d k) as [c|] eqn:G; cbn [option_map]; [|apply IH, IL]. cbv zeta. change (e_type (ws c)) with (e_type c).
      destruct (p_printable _); [|apply IH, IL]. apply below_bind; [apply H; exists k; exact G|]. intros a. apply IH, IL.
  Qed.
  Lemma last_tc_stored l c : last_tc d None l = Some c -> stored c.
  Proof. intros H. apply last_tc_some in H. destruct H as (l1 & k & l2 & _ & G & _). exists k. exact G. Qed.
  Lemma text_fwd f : forall e p, stored e -> below (text_by_key f d 0 0 false rt e p) (text_by_key f d' 0 0 false rt (ws e) p).
  Proof.
    induction f as [|f IH]; intros e p SE; [left; reflexivity|]. destruct (p_textcontainer (props (e_type e))) eqn:C.
    - cbn [text_by_key]. cbv zeta. change (e_type (ws e)) with (e_type e). rewrite C. apply (container_fwd _ _ (fun c => IH c None) e SE C). apply incl_refl.
    - destruct (negb (p_printable (props (e_type e))) || p_hidden (props (e_type e))) eqn:V; [cbn [text_by_key]; cbv zeta; change (e_type (ws e)) with (e_type e); rewrite C, V; apply below_refl|].
      apply orb_false_iff in V. destruct V as (V1 & V2). apply negb_false_iff in V1. assert (PL : plain e) by (split; auto). assert (PL' : plain (ws e)) by (split; auto).
      rewrite (text_plain f d), (text_plain f d') by (assumption || apply pruned_resolves). change (e_data (ws e)) with (keep (e_data e)). apply below_bind; [apply parts_fwd; exact IH|]. intros t. apply below_bind; [|intros; apply below_refl].
      rewrite (last_tc_pruned _ None), last_tc_filter. destruct (last_tc d None (e_data e)) as [c|] eqn:LT; cbn [option_map]; [|apply below_refl]. destruct (str_is_empty t); [|apply below_refl].
      destruct (IH c None (last_tc_stored _ _ LT)) as [-> | ->]; [left; reflexivity|apply below_refl].
  Qed.
  Lemma text_bwd f : forall e p, stored e -> below (text_by_key f d' 0 0 false rt (ws e) p) (text_by_key (S f) d 0 0 false rt e p).
  Proof.
    induction f as [|f IH]; intros e p SE; [left; reflexivity|]. destruct (p_textcontainer (props (e_type e))) eqn:C.
    - assert (X : forall g, text_by_key (S g) d 0 0 false rt e p = container_loop d (fun c => text_by_key g d 0 0 false rt c None) "" (e_data e)) by (intros g; cbn [text_by_key]; cbv zeta; rewrite C; reflexivity).
      assert (X' : forall g, text_by_key (S g) d' 0 0 false rt (ws e) p = container_loop d' (fun c => text_by_key g d' 0 0 false rt c None) "" (keep (e_data e))) by (intros g; cbn [text_by_key]; cbv zeta; change (e_type (ws e)) with (e_type e); rewrite C; reflexivity).
      rewrite (X (S f)), X'. apply (container_bwd _ _ (fun c => IH c None) e SE C). apply incl_refl.
    - destruct (negb (p_printable (props (e_type e))) || p_hidden (props (e_type e))) eqn:V; [right; cbn [text_by_key]; cbv zeta; change (e_type (ws e)) with (e_type e); rewrite C, V; reflexivity|].
      apply orb_false_iff in V. destruct V as (V1 & V2). apply negb_false_iff in V1. assert (PL : plain e) by (split; auto). assert (PL' : plain (ws e)) by (split; auto).
      rewrite (text_plain (S f) d), (text_plain f d') by (assumption || apply pruned_resolves). change (e_data (ws e)) with (keep (e_data e)). apply below_bind; [apply parts_bwd; exact IH|]. intros t. apply below_bind; [|intros; apply below_refl].
      rewrite (last_tc_pruned _ None), last_tc_filter. destruct (last_tc d None (e_data e)) as [c|] eqn:LT; cbn [option_map]; [|apply below_refl]. destruct (str_is_empty t); [|apply below_refl].
      destruct (IH c None (last_tc_stored _ _ LT)) as [-> | ->]; [left; reflexivity|apply below_refl].
  Qed.
  Lemma pruned_text e t : stored e -> (has_text d rt e t <-> has_text d' rt (ws e) t).
  Proof.
    intros SE. split; intros (f & H); [exists f|exists (S f)]; (eapply eq_trans; [|exact H]); apply below_get; try (rewrite H; discriminate); [apply text_fwd|apply text_bwd]; exact SE.
  Qed.
End Pruned.
