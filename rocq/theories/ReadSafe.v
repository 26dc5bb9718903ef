(* ReadSafe.v: what the rules of SpecTokens.v say about the children of a node. *)
From Verif Require Import Base Cst SpecTree Comments New SpecTokens SpecSupported NewProofs ReadProofs TokensProofs TokensProofs2.
Local Open Scope string_scope.
Local Open Scope list_scope.

Definition fine {A} (r : res A) : Prop := forall y, r = Panic y -> y = "comment map missing bucket for node".
Lemma fine_ok {A} (a : A) : fine (Ok a).
Proof. discriminate. Qed.
Lemma fine_bind {A B} (m : res A) (f : A -> res B) : fine m -> (forall a, m = Ok a -> fine (f a)) -> fine (rbind m f).
Proof. intros H1 H2. destruct m; cbn [rbind]; [apply H2; reflexivity| |discriminate]. intros y E. apply H1. injection E as ->. reflexivity. Qed.
Lemma fine_rmap {A B} (f : A -> B) m : fine m -> fine (rmap f m).
Proof. intro H. apply fine_bind; [exact H|]. intros. apply fine_ok. Qed.
Lemma fine_mapR {A B} (f : A -> res B) ls : (forall x, In x ls -> fine (f x)) -> fine (mapR f ls).
Proof.
  induction ls as [|x ls IH]; intro H; [apply fine_ok|]. cbn [mapR]. apply fine_bind; [apply H; left; reflexivity|].
  intros a _. apply fine_bind; [apply IH; intros; apply H; right; assumption|]. intros. apply fine_ok.
Qed.

(* ------------------------------------------------------------ items *)

Section Items.
  Context {A : Type}.
  Variable nd : A -> node.
  Variable fs : list string.
  Notation branch := (branch nd fs).
  Notation sign := (sign nd fs).
  Notation piece := (piece_of_word nd fs).

  Definition item_ok (it : item) (c : A) : Prop :=
    match it with
    | Sign k => sign "" k c
    | SignF f k => sign f k c
    | One f ks | Opt f ks | Rep f ks => branch f ks c
    | Sep s f ks => branch f ks c \/ sign "" s c
    | Verb k _ => branch "" [k] c
    | Word _ => piece c
    | Link _ f ks => branch f ks c \/ piece c
    | Logic _ ps ks => branch "" (ps ++ ks) c \/ piece c \/ sign "" "(" c \/ sign "" ")" c
    end.
  Lemma kind_in_app k a b : kind_in k (a ++ b) = kind_in k a || kind_in k b.
  Proof. apply existsb_app. Qed.
  Lemma branch_more f ks ks' c : (forall k, kind_in k ks = true -> kind_in k ks' = true) -> branch f ks c -> branch f ks' c.
  Proof. intros H (B1 & B2 & B3). split; [exact B1|]. split; [apply H, B2|exact B3]. Qed.
  Lemma sep_each s f ks a c : separated nd fs s f ks a -> In c a -> branch f ks c \/ sign "" s c.
  Proof.
    induction 1 as [a Ha|a x r Ha Hx _ IH]; intro Hc.
    - destruct Hc as [<-|[]]. left. exact Ha.
    - destruct Hc as [<-|[<-|Hc]]; [left; exact Ha|right; exact Hx|apply IH, Hc].
  Qed.
  Lemma link_each w f ks a c : linking nd fs w f ks a -> In c a -> branch f ks c \/ piece c.
  Proof.
    induction 1 as [a Ha|a x r Ha Hx _ IH]; intro Hc.
    - destruct Hc as [<-|[]]. left. exact Ha.
    - destruct Hc as [<-|Hc]; [left; exact Ha|]. apply in_app_or in Hc as [Hc|Hc]; [right|apply IH, Hc].
      destruct Hx as (_ & Hx & _). rewrite Forall_forall in Hx. apply Hx, Hc.
  Qed.
  Lemma cond_each ps ks a c : condition nd fs ps ks a -> In c a -> branch "" (ps ++ ks) c \/ sign "" "(" c \/ sign "" ")" c.
  Proof.
    intros [x Hx|o x e Ho Hx He] Hc.
    - destruct Hc as [<-|[]]. left. eapply branch_more; [|exact Hx]. intros k E. rewrite kind_in_app, E. reflexivity.
    - destruct Hc as [<-|[<-|[<-|[]]]]; [tauto|left|tauto]. eapply branch_more; [|exact Hx]. intros k E. rewrite kind_in_app, E. apply Bool.orb_true_r.
  Qed.
  Lemma conds_each w ps ks a c : conditions nd fs w ps ks a -> In c a -> branch "" (ps ++ ks) c \/ piece c \/ sign "" "(" c \/ sign "" ")" c.
  Proof.
    induction 1 as [a Ha|a x r Ha Hx _ IH]; intro Hc.
    - apply (cond_each _ _ _ _ Ha) in Hc. tauto.
    - apply in_app_or in Hc as [Hc|Hc]; [apply (cond_each _ _ _ _ Ha) in Hc; tauto|].
      apply in_app_or in Hc as [Hc|Hc]; [|apply IH, Hc]. right. left.
      destruct Hx as (_ & Hx & _). rewrite Forall_forall in Hx. apply Hx, Hc.
  Qed.
  Lemma fits_each c : forall its cs, fits nd fs its cs -> In c cs -> exists it, In it its /\ item_ok it c.
  Proof.
    induction its as [|it its IH]; intros cs F Hc; [cbn in F; subst; destruct Hc|].
    destruct it; cbn [fits] in F.
    all: try (destruct F as (x & r & -> & Hx & F); destruct Hc as [<-|Hc]; [eexists; split; [left; reflexivity|exact Hx]|
      destruct (IH _ F Hc) as (it & Hi & Ho); exists it; split; [right; exact Hi|exact Ho]]; fail).
    - destruct F as [F|(x & r & -> & Hx & F)].
      + destruct (IH _ F Hc) as (it & Hi & Ho); exists it; split; [right; exact Hi|exact Ho].
      + destruct Hc as [<-|Hc]; [eexists; split; [left; reflexivity|exact Hx]|].
        destruct (IH _ F Hc) as (it & Hi & Ho); exists it; split; [right; exact Hi|exact Ho].
    - destruct F as (x & r & -> & Hx & F). apply in_app_or in Hc as [Hc|Hc].
      + eexists. split; [left; reflexivity|]. rewrite Forall_forall in Hx. apply Hx, Hc.
      + destruct (IH _ F Hc) as (it & Hi & Ho); exists it; split; [right; exact Hi|exact Ho].
    - destruct F as (x & r & -> & Hx & F). apply in_app_or in Hc as [Hc|Hc].
      + eexists. split; [left; reflexivity|]. eapply sep_each; eauto.
      + destruct (IH _ F Hc) as (it & Hi & Ho); exists it; split; [right; exact Hi|exact Ho].
    - destruct F as (x & r & -> & (Hx & _) & F). destruct Hc as [<-|Hc].
      + eexists. split; [left; reflexivity|]. exact Hx.
      + destruct (IH _ F Hc) as (it & Hi & Ho); exists it; split; [right; exact Hi|exact Ho].
    - destruct F as (x & r & -> & (_ & Hx & _) & F). apply in_app_or in Hc as [Hc|Hc].
      + eexists. split; [left; reflexivity|]. rewrite Forall_forall in Hx. apply Hx, Hc.
      + destruct (IH _ F Hc) as (it & Hi & Ho); exists it; split; [right; exact Hi|exact Ho].
    - destruct F as (x & r & -> & Hx & F). apply in_app_or in Hc as [Hc|Hc].
      + eexists. split; [left; reflexivity|]. eapply link_each; eauto.
      + destruct (IH _ F Hc) as (it & Hi & Ho); exists it; split; [right; exact Hi|exact Ho].
    - destruct F as (x & r & -> & Hx & F). apply in_app_or in Hc as [Hc|Hc].
      + eexists. split; [left; reflexivity|]. eapply conds_each; eauto.
      + destruct (IH _ F Hc) as (it & Hi & Ho); exists it; split; [right; exact Hi|exact Ho].
  Qed.

  Definition gives (it : item) (c : A) : Prop :=
    match it with
    | Sign k => sign "" k c
    | SignF f k => sign f k c
    | One f ks | Sep _ f ks | Link _ f ks => branch f ks c
    | Verb k _ => branch "" [k] c
    | Logic _ ps ks => branch "" (ps ++ ks) c
    | _ => True
    end.
  Definition needed (it : item) : bool := match it with Opt _ _ | Rep _ _ | Word _ => false | _ => true end.
  Lemma cond_has ps ks a : condition nd fs ps ks a -> exists c, In c a /\ branch "" (ps ++ ks) c.
  Proof.
    intros [x Hx|o x e Ho Hx He]; exists x; (split; [cbn; tauto|]); eapply branch_more; try exact Hx; intros k E; rewrite kind_in_app, E;
      [reflexivity|apply Bool.orb_true_r].
  Qed.
  Lemma fits_has it : needed it = true -> forall its cs, fits nd fs its cs -> In it its -> exists c, In c cs /\ gives it c.
  Proof.
    intro N. induction its as [|i its IH]; intros cs F Hi; [destruct Hi|].
    assert (G : forall a r, fits nd fs its r -> In it its -> exists c, In c (a ++ r) /\ gives it c).
    { intros a r F' Hi'. destruct (IH _ F' Hi') as (c & Hc & Ho). exists c. split; [apply in_or_app; right; exact Hc|exact Ho]. }
    destruct i; cbn [fits] in F.
    all: try (destruct F as (x & r & -> & Hx & F); destruct Hi as [<-|Hi]; [eexists; split; [left; reflexivity|exact Hx]|
      exact (G [x] r F Hi)]; fail).
    - destruct Hi as [<-|Hi]; [discriminate N|]. destruct F as [F|(x & r & -> & Hx & F)]; [exact (G [] cs F Hi)|exact (G [x] r F Hi)].
    - destruct Hi as [<-|Hi]; [discriminate N|]. destruct F as (x & r & -> & Hx & F). exact (G x r F Hi).
    - destruct F as (x & r & -> & Hx & F). destruct Hi as [<-|Hi]; [|exact (G x r F Hi)].
      destruct Hx as [a Ha|a b x Ha _ _]; exists a; (split; [left; reflexivity|exact Ha]).
    - destruct F as (x & r & -> & (Hx & _) & F). destruct Hi as [<-|Hi]; [|exact (G [x] r F Hi)]. exists x. split; [left; reflexivity|exact Hx].
    - destruct Hi as [<-|Hi]; [discriminate N|]. destruct F as (x & r & -> & Hx & F). exact (G x r F Hi).
    - destruct F as (x & r & -> & Hx & F). destruct Hi as [<-|Hi]; [|exact (G x r F Hi)].
      destruct Hx as [a Ha|a b x Ha _ _]; exists a; (split; [left; reflexivity|exact Ha]).
    - destruct F as (x & r & -> & Hx & F). destruct Hi as [<-|Hi]; [|exact (G x r F Hi)].
      destruct Hx as [a Ha|a b x Ha _ _]; destruct (cond_has _ _ _ Ha) as (c & Hc & B); exists c; (split; [|exact B]).
      + apply in_or_app. left. exact Hc.
      + apply in_or_app. left. apply in_or_app. left. exact Hc.
  Qed.
End Items.

(* ------------------------------------------------------------ what the rules of a kind allow and need *)

Definition item_kinds (it : item) : list string :=
  match it with
  | One _ ks | Opt _ ks | Rep _ ks | Sep _ _ ks | Link _ _ ks => ks
  | Verb k _ => [k]
  | Logic _ ps ks => ps ++ ks
  | _ => []
  end.
Definition in_item (f : string) (it : item) : bool := kind_in f (item_field it).
Definition named_kinds (alts : list (list item)) : list string := flat_map (flat_map item_kinds) alts.
Definition field_kinds (alts : list (list item)) (f : string) : list string :=
  flat_map (flat_map (fun it => if in_item f it then item_kinds it else [])) alts.
Definition field_signs (alts : list (list item)) (f : string) : list string :=
  flat_map (flat_map (fun it => match it with SignF g s => if String.eqb g f then [s] else [] | _ => [] end)) alts.
Definition subset (a b : list string) : bool := forallb (fun x => kind_in x b) a.
Definition needs_field (alts : list (list item)) (f : string) : bool := forallb (existsb (fun it => needed it && in_item f it)) alts.
Definition needs_kind (alts : list (list item)) (ks : list string) : bool :=
  forallb (existsb (fun it => needed it && negb (is_nil (item_kinds it)) && subset (item_kinds it) ks)) alts.
Fixpoint firsts (its : list item) : list string :=
  match its with
  | [] => []
  | Sign _ :: r | SignF _ _ :: r | Word _ :: r => firsts r
  | Opt _ ks :: r | Rep _ ks :: r => ks ++ firsts r
  | it :: _ => item_kinds it
  end.
Definition first_kinds (alts : list (list item)) : list string := flat_map firsts alts.

Lemma kind_in_In k l : kind_in k l = true <-> In k l.
Proof.
  unfold kind_in. rewrite existsb_exists. split.
  - intros (x & Hx & E). apply String.eqb_eq in E. subst. exact Hx.
  - intro H. exists k. split; [exact H|apply String.eqb_refl].
Qed.
Lemma subset_in a b k : subset a b = true -> kind_in k a = true -> kind_in k b = true.
Proof. intros H K. unfold subset in H. rewrite forallb_forall in H. apply H, kind_in_In, K. Qed.

Section Safe.
  Variable root : node.
  Hypothesis FT : file_tree root.

  Definition above (l : loc) : Prop := forall p, parent l = Some p -> pos root p /\ is_named p = true /\ is_extra p = false.
  Definition solid (l : loc) : Prop := pos root l /\ is_named l = true /\ is_extra l = false /\ above l.
  Definition obeys (k : string) (alts : list (list item)) (l : loc) : Prop :=
    exists alt, In alt alts /\ fits l_node (fields k) alt (ckids l).
  Lemma rules_at l k : pos root l -> is_named l = true -> is_extra l = false -> kind l = k -> is_nil (rules k) = false -> obeys k (rules k) l.
  Proof.
    intros P N E K R. pose proof (ft_rules root FT _ (pos_node _ _ P) E N) as H. unfold follows_rules in H.
    change (n_kind (l_node l)) with (kind l) in H. rewrite K in H. destruct H as (alt & Ha & F).
    - intro C. rewrite C in R. discriminate R.
    - exists alt. split; [exact Ha|]. apply fits_map. rewrite ckids_nodes. exact F.
  Qed.
  Lemma solid_rules l k : solid l -> kind l = k -> is_nil (rules k) = false -> obeys k (rules k) l.
  Proof.
    intros (P & N & E & _) K R. apply rules_at; assumption.
  Qed.
  Lemma kid_pos l c : pos root l -> In c (kids l) -> pos root c.
  Proof. intros. econstructor; eauto. Qed.
  Lemma kid_parent l c : In c (kids l) -> parent c = Some l.
  Proof. intro H. apply kids_in in H as (b & r & _ & ->). reflexivity. Qed.
  Lemma kid_above l c : solid l -> In c (kids l) -> above c.
  Proof. intros S H p E. rewrite (kid_parent l c H) in E. injection E as <-. destruct S as (P & N & X & _). auto. Qed.
  Lemma ckids_in l c : In c (ckids l) -> In c (kids l) /\ is_extra c = false.
  Proof.
    unfold ckids. intro H. apply filter_In in H as [H1 H2]. split; [exact H1|]. unfold plain in H2.
    apply Bool.negb_true_iff, Bool.orb_false_iff in H2 as [H2 _]. exact H2.
  Qed.
  Lemma in_ckids l c : In c (kids l) -> is_extra c = false -> (is_named c = true \/ n_field (l_node c) <> None) -> In c (ckids l).
  Proof.
    intros Hc He Hn. unfold ckids. apply filter_In. split; [exact Hc|]. unfold plain. change (n_extra (l_node c)) with (is_extra c). rewrite He. cbn [orb].
    destruct (spare (l_node l) (l_node c)) eqn:E; [|reflexivity]. apply spare_skipped in E as (E1 & _ & E2). unfold is_named in Hn.
    destruct Hn as [Hn|Hn]; congruence.
  Qed.
  Lemma field_plain l c : pos root l -> In c (kids l) -> n_field (l_node c) <> None -> is_extra c = false.
  Proof.
    intros P Hc Hf. destruct (is_extra c) eqn:E; [|reflexivity]. exfalso. apply Hf.
    apply (ft_comments root FT (l_node c)); [apply pos_node; eapply kid_pos; eauto|exact E].
  Qed.
  Lemma branch_field fs f ks c g : branch l_node fs f ks c -> n_field (l_node c) = Some g -> kind_in g fs = true -> String.eqb f "" = false /\ f = g.
  Proof.
    intros (_ & _ & H) E K. unfold in_field in H. destruct (String.eqb f ""); [rewrite E in H; congruence|]. split; [reflexivity|congruence].
  Qed.
  Lemma sign_field fs f ks c g : sign l_node fs f ks c -> n_field (l_node c) = Some g -> kind_in g fs = true -> String.eqb f "" = false /\ f = g.
  Proof.
    intros (_ & _ & H) E K. unfold in_field in H. destruct (String.eqb f ""); [rewrite E in H; congruence|]. split; [reflexivity|congruence].
  Qed.
  Lemma piece_field fs c g : piece_of_word l_node fs c -> n_field (l_node c) = Some g -> kind_in g fs = true -> False.
  Proof. intros (_ & _ & H) E K. unfold in_field in H. cbn [String.eqb] in H. rewrite E in H. congruence. Qed.
  Lemma in_flat2 {A B} (f : A -> list B) (ll : list (list A)) l x y : In l ll -> In x l -> In y (f x) -> In y (flat_map (flat_map f) ll).
  Proof. intros H1 H2 H3. apply in_flat_map. exists l. split; [exact H1|]. apply in_flat_map. exists x. split; [exact H2|exact H3]. Qed.

  (* A child in a field that the rules name. *)
  Lemma only_field_at l k alts c f : pos root l -> obeys k alts l -> kind_in f (fields k) = true ->
    In c (kids l) -> n_field (l_node c) = Some f ->
    is_extra c = false /\
    ((is_named c = true /\ kind_in (kind c) (field_kinds alts f) = true) \/
     (is_named c = false /\ kind_in (kind c) (field_signs alts f) = true)).
  Proof.
    intros S O KF Hc Hf. assert (E : is_extra c = false) by (eapply field_plain; [exact S|exact Hc|congruence]).
    split; [exact E|]. destruct O as (alt & Ha & F).
    assert (Hk : In c (ckids l)) by (apply in_ckids; [exact Hc|exact E|right; congruence]).
    destruct (fits_each l_node (fields k) c alt _ F Hk) as (it & Hi & Ho).
    assert (BR : forall g ks, branch l_node (fields k) g ks c ->
              (forall s, kind_in s ks = true -> In s (item_kinds it)) -> item_field it = (if String.eqb g "" then [] else [g]) ->
              is_named c = true /\ kind_in (kind c) (field_kinds alts f) = true).
    { intros g ks B HS HI. destruct (branch_field _ _ _ _ _ B Hf KF) as [G ->]. rewrite G in HI. destruct B as (B1 & B2 & _).
      split; [exact B1|]. apply kind_in_In. unfold field_kinds. eapply in_flat2; [exact Ha|exact Hi|].
      unfold in_item. rewrite HI. unfold kind_in at 1. cbn [existsb]. rewrite String.eqb_refl. cbn [orb]. apply HS, B2. }
    assert (SG : forall s, sign l_node (fields k) "" s c -> False).
    { intros s B. destruct (sign_field _ _ _ _ _ B Hf KF) as [G _]. discriminate G. }
    destruct it; cbn [item_ok] in Ho.
    - destruct (SG _ Ho).
    - right. destruct (sign_field _ _ _ _ _ Ho Hf KF) as [_ ->]. destruct Ho as (B1 & B2 & _). split; [exact B1|].
      apply kind_in_In. unfold field_signs. eapply in_flat2; [exact Ha|exact Hi|]. cbn beta iota. rewrite String.eqb_refl. left. symmetry. exact B2.
    - left. eapply BR; [exact Ho|intro; apply kind_in_In|reflexivity].
    - left. eapply BR; [exact Ho|intro; apply kind_in_In|reflexivity].
    - left. eapply BR; [exact Ho|intro; apply kind_in_In|reflexivity].
    - destruct Ho as [Ho|Ho]; [|destruct (SG _ Ho)]. left. eapply BR; [exact Ho|intro; apply kind_in_In|reflexivity].
    - exfalso. destruct (branch_field _ _ _ _ _ Ho Hf KF) as [G _]. discriminate G.
    - destruct (piece_field _ _ _ Ho Hf KF).
    - destruct Ho as [Ho|Ho]; [|destruct (piece_field _ _ _ Ho Hf KF)]. left. eapply BR; [exact Ho|intro; apply kind_in_In|reflexivity].
    - exfalso. destruct Ho as [Ho|[Ho|[Ho|Ho]]]; [|exact (piece_field _ _ _ Ho Hf KF)|exact (SG _ Ho)|exact (SG _ Ho)].
      destruct (branch_field _ _ _ _ _ Ho Hf KF) as [G _]. discriminate G.
  Qed.
  (* A named child. *)
  Lemma only_field l k alts c f : solid l -> obeys k alts l -> kind_in f (fields k) = true ->
    In c (kids l) -> n_field (l_node c) = Some f ->
    is_extra c = false /\
    ((is_named c = true /\ kind_in (kind c) (field_kinds alts f) = true) \/
     (is_named c = false /\ kind_in (kind c) (field_signs alts f) = true)).
  Proof. intros (P & _). exact (only_field_at l k alts c f P). Qed.
  Lemma only_named l k alts c : obeys k alts l ->
    In c (kids l) -> is_named c = true -> is_extra c = false -> kind_in (kind c) (named_kinds alts) = true.
  Proof.
    intros (alt & Ha & F) Hc Hn E.
    assert (Hk : In c (ckids l)) by (apply in_ckids; [exact Hc|exact E|left; exact Hn]).
    destruct (fits_each l_node (fields k) c alt _ F Hk) as (it & Hi & Ho).
    apply kind_in_In. unfold named_kinds. eapply in_flat2; [exact Ha|exact Hi|]. apply kind_in_In.
    assert (SG : forall f s, sign l_node (fields k) f s c -> False) by (intros f s (B & _); unfold is_named in Hn; congruence).
    assert (PG : piece_of_word l_node (fields k) c -> False) by (intros (B & _); unfold is_named in Hn; congruence).
    destruct it; cbn [item_ok item_kinds] in *; try (destruct (SG _ _ Ho); fail); try (destruct (PG Ho); fail).
    - apply Ho.
    - apply Ho.
    - apply Ho.
    - destruct Ho as [Ho|Ho]; [apply Ho|destruct (SG _ _ Ho)].
    - apply Ho.
    - destruct Ho as [Ho|Ho]; [apply Ho|destruct (PG Ho)].
    - destruct Ho as [Ho|[Ho|[Ho|Ho]]]; [apply Ho|destruct (PG Ho)|destruct (SG _ _ Ho)|destruct (SG _ _ Ho)].
  Qed.
  (* A field that every rule names. *)
  Lemma has_one l k alts f : obeys k alts l -> needs_field alts f = true ->
    exists c, In c (kids l) /\ n_field (l_node c) = Some f.
  Proof.
    intros (alt & Ha & F) N.
    unfold needs_field in N. rewrite forallb_forall in N. apply N in Ha. apply existsb_exists in Ha as (it & Hi & Ho).
    apply andb_prop in Ho as [H1 H2]. destruct (fits_has l_node (fields k) it H1 alt _ F Hi) as (c & Hc & G).
    exists c. split; [apply ckids_in, Hc|]. unfold in_item in H2. destruct it; cbn [item_field gives] in *; try discriminate.
    all: destruct (String.eqb f0 "") eqn:E0; [discriminate H2|]; unfold kind_in in H2; cbn [existsb] in H2; rewrite Bool.orb_false_r in H2; apply String.eqb_eq in H2; subst f0;
      destruct G as (_ & _ & G); unfold in_field in G; rewrite E0 in G; exact G.
  Qed.
  Lemma has_kind_one l k alts ks : obeys k alts l -> needs_kind alts ks = true ->
    exists c, In c (kids l) /\ is_named c = true /\ is_extra c = false /\ kind_in (kind c) ks = true.
  Proof.
    intros (alt & Ha & F) N.
    unfold needs_kind in N. rewrite forallb_forall in N. apply N in Ha. apply existsb_exists in Ha as (it & Hi & Ho).
    apply andb_prop in Ho as [Ho H3]. apply andb_prop in Ho as [H1 H2]. destruct (fits_has l_node (fields k) it H1 alt _ F Hi) as (c & Hc & G).
    exists c. apply ckids_in in Hc as [Hc He]. split; [exact Hc|].
    destruct it; cbn [item_kinds gives] in *; try discriminate.
    all: destruct G as (G1 & G2 & _); split; [exact G1|]; split; [exact He|]; eapply subset_in; [exact H3|exact G2].
  Qed.
  Lemma fits_first fs c : forall its cs, fits l_node fs its cs -> hd_error (filter is_named cs) = Some c -> kind_in (kind c) (firsts its) = true.
  Proof.
    assert (BN : forall f ks x, branch l_node fs f ks x -> is_named x = true) by (intros f ks x (B & _); exact B).
    assert (SN : forall f ks x, sign l_node fs f ks x -> is_named x = false) by (intros f ks x (B & _); exact B).
    assert (WN : forall w a, worded l_node fs w a -> filter is_named a = []).
    { intros w a (_ & H & _). induction H as [|x a (B & _) _ IHa]; [reflexivity|]. cbn [filter]. change (is_named x) with (n_named (l_node x)). rewrite B. exact IHa. }
    induction its as [|it its IHi]; intros cs F H; [cbn in F; subst; discriminate H|].
    destruct it; cbn [fits firsts item_kinds] in *.
    - destruct F as (x & r & -> & Hx & F). cbn [filter] in H. rewrite (SN _ _ _ Hx) in H. eapply IHi; eauto.
    - destruct F as (x & r & -> & Hx & F). cbn [filter] in H. rewrite (SN _ _ _ Hx) in H. eapply IHi; eauto.
    - destruct F as (x & r & -> & Hx & F). cbn [filter] in H. rewrite (BN _ _ _ Hx) in H. injection H as <-. apply Hx.
    - rewrite kind_in_app. apply Bool.orb_true_iff. destruct F as [F|(x & r & -> & Hx & F)]; [right; eapply IHi; eauto|left].
      cbn [filter] in H. rewrite (BN _ _ _ Hx) in H. injection H as <-. apply Hx.
    - rewrite kind_in_app. apply Bool.orb_true_iff. destruct F as (a & r & -> & Ha & F). destruct a as [|x a]; [right; eapply IHi; eauto|left].
      inversion Ha as [|? ? Hx _]; subst. cbn [app filter] in H. rewrite (BN _ _ _ Hx) in H. injection H as <-. apply Hx.
    - destruct F as (a & r & -> & Ha & F). destruct Ha as [a Ha|a b x Ha _ _]; cbn [app filter] in H; rewrite (BN _ _ _ Ha) in H; injection H as <-; apply Ha.
    - destruct F as (x & r & -> & (Hx & _) & F). cbn [filter] in H. rewrite (BN _ _ _ Hx) in H. injection H as <-. apply Hx.
    - destruct F as (a & r & -> & Ha & F). rewrite filter_app, (WN _ _ Ha) in H. eapply IHi; eauto.
    - destruct F as (a & r & -> & Ha & F). destruct Ha as [a Ha|a b x Ha _ _]; cbn [app filter] in H; rewrite (BN _ _ _ Ha) in H; injection H as <-; apply Ha.
    - destruct F as (a & r & -> & Ha & F).
      assert (C : forall a t, condition l_node fs ps ks a -> hd_error (filter is_named (a ++ t)) = Some c -> kind_in (kind c) (ps ++ ks) = true).
      { clear. intros a t [x (B1 & B2 & _)|o x e (B0 & _) (B1 & B2 & _) _] H; cbn [app filter] in H.
        - change (is_named x) with (n_named (l_node x)) in H. rewrite B1 in H. injection H as <-. rewrite kind_in_app. unfold kind. rewrite B2. reflexivity.
        - change (is_named o) with (n_named (l_node o)) in H. change (is_named x) with (n_named (l_node x)) in H. rewrite B0, B1 in H. injection H as <-.
          rewrite kind_in_app. unfold kind. rewrite B2. apply Bool.orb_true_r. }
      destruct Ha as [a Ha|a x b Ha _ _]; [eapply C; eauto|]. rewrite <- app_assoc in H. eapply C; eauto.
  Qed.
  Lemma first_named l k alts c : obeys k alts l -> try_first_c l = Some c -> kind_in (kind c) (first_kinds alts) = true.
  Proof.
    intros (alt & Ha & F) H. unfold try_first_c in H. rewrite code_vec in H.
    pose proof (fits_first _ _ _ _ F H) as G. apply kind_in_In. apply in_flat_map. exists alt. split; [exact Ha|apply kind_in_In, G].
  Qed.
  Lemma obeys_or k a alts l : obeys k (a :: alts) l -> obeys k [a] l \/ obeys k alts l.
  Proof. intros (alt & [<-|Ha] & F); [left; exists a; split; [left; reflexivity|exact F]|right; exists alt; split; [exact Ha|exact F]]. Qed.
  Lemma obeys_nil k l : obeys k [] l -> False.
  Proof. intros (alt & [] & _). Qed.
End Safe.
