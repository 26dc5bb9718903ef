(* TrimEdges.v: no line that is printed ends with white space.  Proofs only. *)
From Coq Require Import Lia.
From Verif Require Import Base Doc DocBuilder Cst Comments Term SpecTree New ReadProofs NewProofs
  SpecTokens CollectProofs TokensProofs SpecWords WordsProofs WordsTerm WordsSorts SpecComments SeqTerm SeqComments SpecTrim.
From Verif Require SeqEdges LayoutNew TokensProofs2 FormatProofs TextProofs.
Open Scope res_scope.
Local Open Scope string_scope.
Local Open Scope list_scope.
Notation lead := SeqEdges.lead.
Notation last_ := SeqEdges.last_.

(* ------------------------------------------------------------ what has been printed so far *)

(* Neat: the text so far does not end with a blank, and no break is held back;
   Open: the text so far does not end with a blank, a break may be held back;
   Wide: so too, and the text may end with one line feed;
   Any: the text so far may end with a blank if no break is held back, and with one line feed
   if one is.
   [r_sparse]: the texts that are printed have no two empty lines in a row;
   [r_single]: they have no two spaces in a row, and none begins with a space behind a
   blank. *)
Record rules := Rules { r_sparse : bool; r_single : bool }.
Inductive lev := Neat | Open | Wide | Any.
Definition le (a b : lev) : Prop :=
  match a, b with Neat, _ | Open, Open | Open, Wide | Open, Any | Wide, Wide | Wide, Any | Any, Any => True | _, _ => False end.
Section Strict.
Context {strict : rules}.
Definition fit (b : bool) (s : ustr) : bool :=
  tidy b s && ((sparse s || negb (r_sparse strict)) && (singles false s || negb (r_single strict))).
Definition apart (e : lev) (s : ustr) : bool :=
  match s with
  | c :: _ :: _ => negb (c =? c_sp)%N || (match e with Any => false | _ => true end || negb (r_single strict))
  | _ => true
  end.
Definition step1 (e : lev) (p : piece) : option lev :=
  match p with
  | PN _ => Some e
  | PT [] => Some (match e with Neat => Neat | _ => Any end)
  | PT s => if fit true s && apart e s then Some (if last_ s then Neat else Any) else None
  | PB => match e with Any => None | Wide => Some Wide | _ => Some Open end
  | PF => match e with Neat | Open => Some Wide | _ => None end
  | PS => match e with Neat => Some Any | _ => None end
  | PY => match e with Any => None | Wide => Some Wide | _ => Some Open end
  | PG => match e with Neat => Some Neat | _ => Some Any end
  end.
Fixpoint steps (e : lev) (l : list piece) : option lev :=
  match l with [] => Some e | p :: l => match step1 e p with Some m => steps m l | None => None end end.
Lemma steps_app e a b : steps e (a ++ b) = match steps e a with Some m => steps m b | None => None end.
Proof. revert e. induction a as [|p a IH]; intro e; [reflexivity|]. cbn [app steps]. destruct (step1 e p); [apply IH|reflexivity]. Qed.
Lemma le_refl a : le a a.
Proof. destruct a; exact I. Qed.
Lemma le_Any a : le a Any.
Proof. destruct a; exact I. Qed.
Lemma le_Neat a : le Neat a.
Proof. exact I. Qed.
Lemma le_trans a b c : le a b -> le b c -> le a c.
Proof. destruct a, b, c; cbn; tauto. Qed.
Lemma step1_mono a b p m : le a b -> step1 b p = Some m -> exists m', step1 a p = Some m' /\ le m' m.
Proof.
  intros L H. destruct p as [[|c s]| | | | | |]; cbn [step1] in *.
  2: { destruct (fit true (c :: s)); [|discriminate]. cbn [andb] in *. assert (Q : apart b (c :: s) = true -> apart a (c :: s) = true).
       { unfold apart. destruct s; [auto|]. destruct (negb (c =? c_sp)%N); [auto|]. destruct a, b; try destruct L; cbn; auto. }
       destruct (apart b (c :: s)); [|discriminate]. rewrite Q by reflexivity. injection H as <-. eexists. split; [reflexivity|apply le_refl]. }
  all: destruct a, b; try destruct L; try discriminate H; injection H as <-; (eexists; split; [reflexivity|exact I]).
Qed.
Lemma steps_mono a b l : forall m, le a b -> steps b l = Some m -> exists m', steps a l = Some m' /\ le m' m.
Proof.
  revert a b. induction l as [|p l IH]; intros a b m L H; cbn [steps] in *.
  - injection H as <-. exists a. split; [reflexivity|exact L].
  - destruct (step1 b p) as [m1|] eqn:E; [|discriminate]. destruct (step1_mono a b p m1 L E) as (m2 & -> & L2). eapply IH; eassumption.
Qed.
Definition join (a b : lev) : lev := match a, b with Any, _ | _, Any => Any | Wide, _ | _, Wide => Wide | Open, _ | _, Open => Open | Neat, Neat => Neat end.

Definition K (e : lev) (l : list piece) (e' : lev) : Prop := exists m, steps e l = Some m /\ le m e'.

Section Comments.
Variable cm : cmap.
Definition K1 (e : lev) (x : dt) (e' : lev) : Prop := K e (cseq cm x) e'.
Definition KD (e : lev) (l : list dt) (e' : lev) : Prop := K e (flat_map (cseq cm) l) e'.

Lemma K_nil e : K e [] e.
Proof. exists e. split; [reflexivity|apply le_refl]. Qed.
Lemma K_run e l m : steps e l = Some m -> K e l m.
Proof. intro H. exists m. split; [exact H|apply le_refl]. Qed.
Lemma K_weak e l e' a a' : K e l e' -> le a e -> le e' a' -> K a l a'.
Proof.
  intros (m & H & L) L1 L2. destruct (steps_mono a e l m L1 H) as (m' & H' & L'). exists m'. split; [exact H'|].
  eapply le_trans; [exact L'|]. eapply le_trans; eassumption.
Qed.
Lemma K_app e a m c e' : K e a m -> K m c e' -> K e (a ++ c) e'.
Proof.
  intros (m1 & H1 & L1) H2. destruct (K_weak _ _ _ m1 e' H2 L1 (le_refl _)) as (m2 & E2 & L2).
  exists m2. rewrite steps_app, H1. split; assumption.
Qed.
Definition post_text (e : lev) (s : ustr) : option lev := step1 e (PT s).
Lemma K_text e s e' : post_text e s = Some e' -> K e [PT s] e'.
Proof. intro H. apply K_run. cbn [steps]. unfold post_text in H. rewrite H. reflexivity. Qed.
Lemma K_flat {B} (f : B -> list piece) a c e l :
  Forall (fun x => K a (f x) c) l -> le e a -> le c a -> K e (flat_map f l) (join e c).
Proof.
  intros H L1 L2. assert (G : forall d, le d a -> le d (join e c) -> K d (flat_map f l) (join e c)).
  { induction H as [|x l Hx H IH]; intros d L L'; [cbn; eapply K_weak; [apply K_nil|apply le_refl|exact L']|].
    cbn [flat_map]. eapply K_app; [eapply K_weak; [exact Hx|exact L|apply le_refl]|]. apply IH; [exact L2|].
    destruct e, c; exact I. }
  apply G; [exact L1|]. destruct e, c; exact I.
Qed.

Lemma KD_nil e : KD e [] e.
Proof. apply K_nil. Qed.
Lemma KD_cons e x m l e' : K1 e x m -> KD m l e' -> KD e (x :: l) e'.
Proof. apply K_app. Qed.
Lemma KD_app e a m c e' : KD e a m -> KD m c e' -> KD e (a ++ c) e'.
Proof. unfold KD. rewrite flat_map_app. apply K_app. Qed.
Lemma KD_list a c e l m : Forall (fun x => K1 a x c) l -> le e a -> le c a -> join e c = m -> KD e l m.
Proof. intros H L1 L2 <-. exact (K_flat (cseq cm) a c e l H L1 L2). Qed.

Lemma K1_weak e x e' a a' : K1 e x e' -> le a e -> le e' a' -> K1 a x a'.
Proof. apply K_weak. Qed.
Lemma K1_up e x e' a' : K1 e x e' -> le e' a' -> K1 e x a'.
Proof. intros H L. eapply K1_weak; [exact H|apply le_refl|exact L]. Qed.
Lemma K1_const e s m : post_text e s = Some m -> K1 e (TTxt s) m.
Proof. apply K_text. Qed.
Lemma K1_run e x m : steps e (cseq cm x) = Some m -> K1 e x m.
Proof. apply K_run. Qed.
Lemma K1_concat e l e' : KD e l e' -> K1 e (TConcat l) e'.
Proof. exact (fun H => H). Qed.
Lemma K1_indent e x e' : K1 e x e' -> K1 e (TIndent x) e'.
Proof. exact (fun H => H). Qed.
Lemma K1_dedent e x e' : K1 e x e' -> K1 e (TDedent x) e'.
Proof. exact (fun H => H). Qed.
Definition grp (e : lev) : lev := match e with Neat => Neat | _ => Any end.
Lemma K1_group e m x e' : grp e = m -> K1 m x e' -> K1 e (TGroup x) e'.
Proof. intros <- H. apply (K_app e [PG] (grp e)); [|exact H]. apply K_run. destruct e; reflexivity. Qed.

(* ------------------------------------------------------------ comments *)

Definition line_fine (s : ustr) : Prop :=
  ~ In c_nl s /\ s <> [] /\ last_ s = true /\ (r_single strict = true -> singles false s = true).
Definition front_fine (s : ustr) : Prop := r_single strict = true -> starts_with [c_sp] s = false.
Definition comment_fine (c : comment) : Prop :=
  normal_lines (c_line c) (c_value c) <> [] /\ Forall line_fine (normal_lines (c_line c) (c_value c)) /\
  front_fine (hd [] (normal_lines (c_line c) (c_value c))).
Definition pre_fine (cs : list comment) : Prop :=
  Forall comment_fine cs /\ forall c, In c cs -> c_trailing c = true -> cs = [c].
Definition post_fine (cs : list comment) : Prop := Forall (fun c => comment_fine c /\ c_trailing c = false) cs.

Lemma tidy_no_nl s b : ~ In c_nl s -> tidy b s = true.
Proof.
  revert b. induction s as [|c s IH]; intros b H; [reflexivity|]. cbn [tidy]. destruct (N.eqb_spec c c_nl) as [->|_].
  - exfalso. apply H. left. reflexivity.
  - apply IH. intro Hi. apply H. right. exact Hi.
Qed.
Lemma feeds_no_nl s k : ~ In c_nl s -> s <> [] -> feeds k s = Some 0.
Proof.
  revert k. induction s as [|c s IH]; intros k H N; [congruence|]. cbn [feeds]. destruct (N.eqb_spec c c_nl) as [->|_].
  - exfalso. apply H. left. reflexivity.
  - destruct s as [|d s]; [reflexivity|]. apply IH; [intro Hi; apply H; right; exact Hi|discriminate].
Qed.
Lemma fit_no_nl s b : ~ In c_nl s -> s <> [] -> (r_single strict = true -> singles false s = true) -> fit b s = true.
Proof.
  intros H N G. unfold fit, sparse. rewrite (tidy_no_nl s b H), (feeds_no_nl s 0 H N). cbn [andb orb].
  destruct (r_single strict); [rewrite G by reflexivity; reflexivity|apply Bool.orb_true_r].
Qed.
Lemma apart_ok e s : e <> Any \/ front_fine s -> apart e s = true.
Proof.
  unfold apart, front_fine. intros [H|H]; (destruct s as [|c [|d s]]; [reflexivity|reflexivity|]).
  - destruct e; [..|congruence]; rewrite ?Bool.orb_true_r; reflexivity.
  - cbn [starts_with] in H. destruct (r_single strict); [|rewrite !Bool.orb_true_r; reflexivity].
    specialize (H eq_refl). destruct (N.eqb_spec c c_sp) as [->|]; [|reflexivity]. discriminate H.
Qed.
Lemma K_line e s : line_fine s -> e <> Any \/ front_fine s -> K e [PT s] Neat.
Proof.
  intros (H1 & H2 & H3 & H4) H5. apply K_text. unfold post_text. destruct s as [|c s]; [congruence|]. cbn [step1].
  rewrite (fit_no_nl _ true H1 H2 H4), (apart_ok _ _ H5), H3. reflexivity.
Qed.
Lemma K_lines e ls : ls <> [] -> Forall line_fine ls -> e <> Any \/ front_fine (hd [] ls) -> K e (flat_map dseq (FormatProofs.line_docs ls)) Neat.
Proof.
  intros N H. revert e N. induction H as [|l ls Hl H IH]; intros e N G; [congruence|]. destruct ls as [|l' ls].
  - cbn. apply K_line; [exact Hl|exact G].
  - rewrite FormatProofs.line_docs_cons by discriminate. cbn [flat_map]. apply (K_app e _ Neat); [apply K_line; [exact Hl|exact G]|].
    apply (K_app Neat [PB] Open); [apply K_run; reflexivity|]. apply IH; [discriminate|left; discriminate].
Qed.
Lemma K_comment e c : comment_fine c -> K e (dseq (comment_doc c)) Open.
Proof.
  intros (N & H & G). unfold comment_doc, concat. cbn [dseq]. rewrite FormatProofs.comment_docs_lines, flat_map_app.
  apply (K_app e _ Neat); [apply K_lines; [assumption|assumption|right; exact G]|]. destruct (c_line c); [apply K_run; reflexivity|].
  eapply K_weak; [apply (K_nil Neat)|apply le_refl|apply le_Neat].
Qed.
Lemma K_gap e (u : bool) : le e Open -> K e (dseq (if u then empty_new_line else nl)) Wide.
Proof. intro H. destruct e, u; try destruct H; (eexists; split; [vm_compute; reflexivity|exact I]). Qed.
Lemma K_space e : K e [PT [c_sp]] Any.
Proof. apply K_text. destruct e; reflexivity. Qed.
Lemma K_pre_list cs : forall e first, Forall (fun c => comment_fine c /\ c_trailing c = false) cs -> (first = true \/ le e Open) ->
  K e (flat_map dseq (pre_comments_docs first cs)) (match cs with [] => e | _ => Wide end).
Proof.
  induction cs as [|c cs IH]; intros e first H G; [apply K_nil|]. inversion H as [|? ? [Hc Ht] H']; subst.
  cbn [pre_comments_docs]. rewrite flat_map_app. apply (K_app e _ (if is_nil cs then Wide else Open)).
  - unfold pre_comment_docs. rewrite Ht, !flat_map_app. apply (K_app e _ Any).
    { destruct (c_leading c); [apply K_space|]. cbn [flat_map dseq app]. destruct first; [cbn; eapply K_weak; [apply (K_nil Any)|apply le_Any|apply le_refl]|].
      destruct G as [G|G]; [discriminate|]. cbn [flat_map]. rewrite app_nil_r. eapply K_weak; [apply (K_gap e _ G)|apply le_refl|exact I]. }
    apply (K_app Any _ Open); [cbn [flat_map]; rewrite app_nil_r; apply K_comment, Hc|].
    destruct (is_nil cs); [|apply K_nil]. cbn [flat_map]. rewrite app_nil_r. apply K_gap. exact I.
  - assert (G' : false = true \/ le Open Open) by (right; exact I). specialize (IH Open false H' G'). clear - IH. destruct cs; [apply K_nil|exact IH].
Qed.
Lemma K_pre e bk : pre_fine (pre bk) -> K e (cpre bk) Any.
Proof.
  intros [F A]. unfold cpre, handle_pre_comments. destruct (pre bk) as [|c cs] eqn:E.
  { eapply K_weak; [apply (K_nil Any)|apply le_Any|apply le_refl]. }
  cbn [flat_map]. unfold concat. cbn [dseq]. rewrite app_nil_r.
  destruct (existsb c_trailing (c :: cs)) eqn:X.
  - apply existsb_exists in X as (d & Hd & X). pose proof (A d Hd X) as Q. injection Q as -> ->. inversion F; subst.
    cbn [pre_comments_docs is_nil]. unfold pre_comment_docs. rewrite X, app_nil_r, !flat_map_app. apply (K_app e _ Any).
    { destruct (c_leading d); [apply K_space|]. cbn [flat_map dseq app]. eapply K_weak; [apply (K_nil Any)|apply le_Any|apply le_refl]. }
    apply (K_app Any _ Open); [cbn [flat_map]; rewrite app_nil_r; apply K_comment; assumption|]. apply K_space.
  - eapply K_weak; [apply (K_pre_list (c :: cs) e true)|apply le_refl|exact I]; [|left; reflexivity].
    apply Forall_forall. intros d Hd. rewrite Forall_forall in F. split; [apply F, Hd|]. destruct (c_trailing d) eqn:T; [|reflexivity].
    assert (existsb c_trailing (c :: cs) = true) by (apply existsb_exists; exists d; auto). congruence.
Qed.
Lemma K_post_list cs : forall e, post_fine cs -> le e Open -> K e (flat_map dseq (flat_map post_comment_docs cs)) (match cs with [] => e | _ => Open end).
Proof.
  induction cs as [|c cs IH]; intros e H G; [apply K_nil|]. inversion H as [|? ? [Hc Ht] H']; subst.
  cbn [flat_map]. rewrite flat_map_app. apply (K_app e _ Open).
  - unfold post_comment_docs. rewrite Ht, !flat_map_app. cbn [andb flat_map]. rewrite !app_nil_r. apply (K_app e _ Any).
    { destruct (c_leading c); [apply K_space|].
      eapply K_weak; [|apply le_refl|apply (le_Any Wide)]. destruct (c_above c); cbn [flat_map]; rewrite app_nil_r; [exact (K_gap e true G)|exact (K_gap e false G)]. }
    apply K_comment, Hc.
  - assert (G' : le Open Open) by exact I. specialize (IH Open H' G'). clear - IH. destruct cs; exact IH.
Qed.
Definition behind (bk : bucket) : lev := if is_nil (post bk) then Neat else Open.
Lemma K_post bk : post_fine (post bk) -> K Neat (cpost bk) (behind bk).
Proof.
  intro F. unfold cpost. destruct (is_nil (dangling bk)); [|eapply K_weak; [apply (K_nil Neat)|apply le_refl|apply le_Neat]].
  assert (N : le Neat Open) by exact I. pose proof (K_post_list (post bk) Neat F N) as G. unfold handle_post_comments, behind.
  destruct (post bk); [apply K_nil|]. cbn [is_nil]. cbn [flat_map] in *. unfold concat. cbn [dseq]. rewrite app_nil_r. exact G.
Qed.
Lemma K_dangling bk : Forall comment_fine (dangling bk) -> K Open (cdangling bk) Open.
Proof.
  unfold cdangling. induction 1 as [|c cs Hc H IH]; [apply K_nil|]. cbn [flat_map]. rewrite flat_map_app. eapply K_app; [|exact IH].
  unfold dangling_comment_docs. rewrite flat_map_app. apply (K_app Open _ Any); [|cbn [flat_map]; rewrite app_nil_r; apply K_comment, Hc].
  destruct (c_leading c); [apply K_space|]. destruct (c_above c); [eexists; split; [vm_compute; reflexivity|exact I]|].
  destruct (c_prev c); (eexists; split; [vm_compute; reflexivity|exact I]).
Qed.
Lemma K_braces e bk body : Forall comment_fine (dangling bk) -> K e body Neat -> K e (cbraces bk body) Neat.
Proof.
  intros F H. unfold cbraces. destruct (is_nil (dangling bk)); [exact H|].
  apply (K_app e [PT (U "{"); PB] Open); [apply K_run; destruct e; reflexivity|].
  eapply K_app; [apply K_dangling, F|]. apply K_run. reflexivity.
Qed.

Definition sign_ok (o : option punct) : Prop :=
  match o with None => True | Some (Punct _ id) => pre (bkt cm id) = [] /\ post (bkt cm id) = [] end.
Lemma K_sign e p : sign_ok (Some p) -> K e (csign cm p) Neat.
Proof.
  destruct p as [c id]. intros [H1 H2]. unfold csign, punct_docs. rewrite H1, H2. apply K_text. destruct c; destruct e; reflexivity.
Qed.
Lemma K_opt_sign e (o : option punct) : sign_ok o -> K e (csign_opt cm o) e.
Proof. destruct o as [p|]; [|intros _; apply K_nil]. intro H. eapply K_weak; [apply (K_sign e p H)|apply le_refl|apply le_Neat]. Qed.
Lemma K1_punct e p : sign_ok (Some p) -> K1 e (TPunct p) Neat.
Proof. apply K_sign. Qed.

Hypothesis fine_pre : forall id, pre_fine (pre (bkt cm id)).
Hypothesis fine_post : forall id, post_fine (post (bkt cm id)).
Hypothesis fine_dangling : forall id, Forall comment_fine (dangling (bkt cm id)).
Definition plain_handling (h : handling) : Prop := match h with HPlain | HPunc | HAttached => True | _ => False end.
Definition brace_handling (h : handling) : Prop := match h with HBracket | HBracketNoPost => True | _ => False end.
Lemma K1_node e h x body tail e' : plain_handling h -> sign_ok (x_punc x) -> dangling (bkt cm (x_id x)) = [] ->
  KD Any body Neat -> KD (behind (bkt cm (x_id x))) tail e' -> K1 e (TNode h x body tail) e'.
Proof.
  intros P S D H1 H2. unfold K1. cbn [cseq]. eapply K_app; [|exact H2]. clear H2.
  assert (HB : forall p, K Any p Neat -> K e (cpre (bkt cm (x_id x)) ++ p) Neat).
  { intros p Hp. eapply K_app; [apply K_pre, fine_pre|exact Hp]. }
  assert (B : cbody (bkt cm (x_id x)) (flat_map (cseq cm) body) = flat_map (cseq cm) body) by (unfold cbody; rewrite D; reflexivity).
  pose proof (K_post (bkt cm (x_id x)) (fine_post _)) as HP.
  destruct h; try destruct P; unfold node_cseq; rewrite B.
  - eapply K_app; [apply K_pre, fine_pre|]. eapply K_app; [exact H1|exact HP].
  - eapply K_app; [apply K_pre, fine_pre|]. eapply K_app; [exact H1|]. eapply K_app; [exact HP|apply K_opt_sign, S].
  - eapply K_app; [apply K_pre, fine_pre|]. eapply K_app; [exact H1|]. eapply K_app; [apply K_opt_sign, S|exact HP].
Qed.
(* a node without comments behind it *)
Lemma K1_node_any e x body tail m e' : post (bkt cm (x_id x)) = [] -> dangling (bkt cm (x_id x)) = [] ->
  KD Any body m -> KD m tail e' -> K1 e (TNode HPlain x body tail) e'.
Proof.
  intros Q D H1 H2. unfold K1. cbn [cseq node_cseq]. eapply K_app; [|exact H2]. unfold cbody, cpost, handle_post_comments. rewrite D, Q. cbn [is_nil flat_map].
  rewrite app_nil_r. eapply K_app; [apply K_pre, fine_pre|exact H1].
Qed.
Lemma K1_braces e h x body : brace_handling h -> KD Any body Neat -> K1 e (TNode h x body []) (behind (bkt cm (x_id x))).
Proof.
  intros B H. unfold K1. cbn [cseq flat_map]. rewrite app_nil_r. pose proof (K_post (bkt cm (x_id x)) (fine_post _)) as HP.
  destruct h; try destruct B; cbn [node_cseq]; (eapply K_app; [apply K_pre, fine_pre|]).
  - eapply K_app; [apply K_braces; [apply fine_dangling|exact H]|exact HP].
  - eapply K_weak; [apply K_braces; [apply fine_dangling|exact H]|apply le_refl|apply le_Neat].
Qed.

(* begins with a text and ends with a visible character *)
Definition tight (x : dt) : Prop := K1 Any x Neat.
Definition loose (x : dt) : Prop := K1 Any x Open.
Definition fair (sep : tins) : Prop := K Neat (ins_seq sep) Any.
Lemma K_joined sep l : fair sep -> Forall tight l -> K Neat (flat_map (fun y => ins_seq sep ++ y) (map (cseq cm) l)) Neat.
Proof.
  intros S H. apply (K_flat (fun y => ins_seq sep ++ y) Neat Neat Neat); try apply le_refl.
  induction H as [|y l Hy HF IH]; cbn [map]; constructor; [|exact IH].
  apply (K_app Neat _ Any); [exact S|exact Hy].
Qed.
Lemma K_strung1 e sep x l : fair sep -> tight x -> Forall tight l -> K e (strung_seq (ins_seq sep) (map (cseq cm) (x :: l))) Neat.
Proof.
  intros S Hx HF. cbn [map strung_seq]. eapply K_app; [eapply K_weak; [exact Hx|apply le_Any|apply le_refl]|].
  apply K_joined; assumption.
Qed.
Lemma K_strung e sep l : fair sep -> Forall tight l -> K e (strung_seq (ins_seq sep) (map (cseq cm) l)) (grp e).
Proof.
  intros S HF. destruct HF as [|x l Hx HF]; [apply K_text; destruct e; reflexivity|].
  eapply K_weak; [apply K_strung1; assumption|apply le_refl|apply le_Neat].
Qed.
Lemma K1_inter e l sep m : fair sep -> Forall tight l -> grp e = m -> K1 e (TIntersperse l sep) m.
Proof. intros S H <-. apply K_strung; assumption. Qed.
Lemma K1_inter1 e x l sep : fair sep -> Forall tight (x :: l) -> K1 e (TIntersperse (x :: l) sep) Neat.
Proof. intros S H. inversion H; subst. apply K_strung1; assumption. Qed.
Lemma K1_surround e l sep o c m m' : fair sep -> Forall tight l -> K e (ins_seq o) m -> K Neat (ins_seq c) m' -> K e (str_seq o ++ str_seq c) m' ->
  K1 e (TSurround l sep o c) m'.
Proof.
  intros S HF HO HC HE. unfold K1. cbn [cseq]. destruct l as [|x l]; [exact HE|].
  eapply K_app; [exact HO|]. eapply K_app; [|exact HC]. inversion HF; subst. apply K_strung1; assumption.
Qed.
Lemma K_sep tr : K Open (sep_seq tr) Any.
Proof. destruct tr; (eexists; split; [vm_compute; reflexivity|exact I]). Qed.
Lemma K_members1 (ms : list (dt * bool)) : Forall (fun m => loose (fst m)) ms -> ms <> [] -> K Any (cmseq cm ms) Open.
Proof.
  unfold cmseq. intros H. induction H as [|[y tr] r Hy HF IH]; intro N; [congruence|]. cbn [map member_seq fst] in *.
  destruct r as [|z r]; [exact Hy|]. destruct z as [z tz]. cbn [map] in *. eapply K_app; [exact Hy|].
  apply (K_app Open _ Any); [apply K_sep|]. apply IH. discriminate.
Qed.
Lemma K1_members ms : Forall (fun m => loose (fst m)) ms -> K1 Neat (TMembers ms) Open.
Proof.
  intro H. destruct ms as [|m ms]; [eexists; split; [reflexivity|exact I]|]. eapply K_weak; [apply (K_members1 (m :: ms)); [exact H|discriminate]|apply le_Any|apply le_refl].
Qed.
Lemma K1_members1 e m ms : Forall (fun m => loose (fst m)) (m :: ms) -> K1 e (TMembers (m :: ms)) Open.
Proof. intro H. eapply K_weak; [apply (K_members1 (m :: ms)); [exact H|discriminate]|apply le_Any|apply le_refl]. Qed.
Lemma K1_smembers e ms : Forall (fun m => loose (fst m)) ms -> K1 e (TSurroundMembers ms (U "{") (U "}")) Neat.
Proof.
  intro H. unfold K1. cbn [cseq]. apply (K_app e [PT (U "{"); PB] Open); [apply K_run; destruct e; reflexivity|].
  eapply (K_app Open _ Open).
  - destruct ms as [|m ms]; [apply K_nil|]. eapply K_app; [eapply K_weak; [apply (K_members1 (m :: ms)); [exact H|discriminate]|apply le_Any|apply le_refl]|].
    apply K_run. reflexivity.
  - apply K_run. reflexivity.
Qed.

(* ------------------------------------------------------------ the syntax types *)
Definition bordered (s : ustr) : Prop := lead s = true /\ last_ s = true.
Definition solid (root : node) : Prop := forall n, In n (flat_map all_nodes (children root)) -> n_kind n <> "line_comment" \/ n_field n <> None -> bordered (n_text n).
Definition entry (s : sort) : lev := match s with Root | AnnotationArgumentList | CatchClause | FinallyClause | ExtendsInterface => Neat | _ => Any end.
Definition quit (s : sort) : lev :=
  match s with
  | Modifiers => Any
  | Annotation | Root => Open
  | _ => Neat
  end.
(* the sorts that may read a node of one of the kinds of members *)
Definition tame (s : sort) : bool :=
  match s with
  | RootMember | ClassMember | InterfaceMember | Statement | ClassDeclaration | InterfaceDeclaration | EnumDeclaration
  | TriggerDeclaration | FieldDeclaration | MethodDeclaration | ConstructorDeclaration | ConstantDeclaration
  | StaticInitializer | ConstructInvocation | IfStatement | ExpressionStatement | LocalVariableDeclaration | ForStatement
  | EnhancedForStatement | RunAsStatement | DoStatement | WhileStatement | ReturnStatement | TryStatement | ThrowStatement
  | BreakStatement | ContinueStatement | SwitchExpression | ForInitOption | AnnotationArgumentList | TypeArguments
  | ArgumentList | ParenthesizedExpression | ConstructorBody | TypeParameter | EnumConstant | DmlSecurityMode
  | ExtendsInterface | WhenSObjectType | JavaType | ReturningClause | UpdateClause | ComparableList | SubQuery => false
  | _ => true
  end.
(* the sorts whose reader does not look at the kind of the node *)
Definition blind (s : sort) : bool :=
  match s with
  | TypeArguments | ArgumentList | ParenthesizedExpression | ConstructorDeclaration | ConstructInvocation | TypeParameter
  | EnumDeclaration | EnumConstant | StaticInitializer | ExtendsInterface | ConstantDeclaration | WhenSObjectType | JavaType
  | ReturningClause | UpdateClause | ComparableList | SubQuery => true
  | _ => false
  end.

Section Sorts.
  Variable root : node.
  Hypothesis sane : solid root.
  Hypothesis spoken : tidy_texts root.
  Hypothesis airy : r_sparse strict = true -> sparse_texts root.
  Hypothesis even : r_single strict = true -> single_texts root.
  Hypothesis whole : full_clauses root.
  Hypothesis grown : filled root.
  Definition bk (n : node) : bucket := bkt cm (n_id n).
  Hypothesis behind_members : forall n, In n (all_nodes root) -> post (bk n) <> [] ->
    kind_in (n_kind n) member_kinds = true /\ n_field n = None.
  Hypothesis alone_bodies : forall n, In n (all_nodes root) -> dangling (bk n) <> [] ->
    kind_in (n_kind n) body_kinds = true /\ in_body n = true.
  Hypothesis quiet_signs : forall n, In n (all_nodes root) -> separator n = true -> pre (bk n) = [] /\ post (bk n) = [].
  Hypothesis quiet_clauses : r_single strict = true -> forall n, In n (all_nodes root) -> announced n = true -> pre (bk n) = [].
  Variable checked : bool.
  Variable rec : sort -> loc -> res dt.
  Definition out (l : loc) : lev := behind (bk (l_node l)).
  Definition quit_at (s : sort) (l : loc) : lev := match s with Modifiers => Any | Annotation | Root => Open | _ => out l end.
  (* a node without comments behind it *)
  Definition KK (s : sort) (x : dt) : Prop := match s with AnnotationArgumentList | Root => True | _ => K1 (entry s) x (quit s) end.
  Definition KL (s : sort) (l : loc) (x : dt) : Prop := match s with AnnotationArgumentList | Root => True | _ => K1 (entry s) x (quit_at s l) end.
  Definition at_ (l : loc) : Prop := pos root l /\ In (l_node l) (flat_map all_nodes (children root)).
  Definition calm (l : loc) : Prop := dangling (bk (l_node l)) = [].
  Definition still (l : loc) : Prop := calm l /\ post (bk (l_node l)) = [].
  Hypothesis IH : forall s l x, at_ l -> (blind s = true -> calm l) -> rec s l = Ok x -> KL s l x.
  Hypothesis IHA : forall l x, at_ l -> kind l = "annotation_argument_list" -> rec AnnotationArgumentList l = Ok x -> K1 Neat x Neat.
  Hypothesis IHT : forall s l x, tame s = true -> kind_in (kind l) member_kinds = true -> rec s l = Ok x -> False.

  Lemma at_kid l c : pos root l -> In c (kids l) -> at_ c.
  Proof.
    intros P H. split; [eapply Pos_kid; eassumption|]. apply kids_child in H.
    assert (Q : forall n, In n (all_nodes root) -> forall m, In m (children n) -> In m (flat_map all_nodes (children root))).
    { clear. intros n Hn m Hm. 
      revert n Hn m Hm. induction root as [i cs IHc] using node_nested_ind.
      intros n Hn m Hm. cbn [all_nodes children] in *. destruct Hn as [<-|Hn].
      - apply in_flat_map. exists m. split; [exact Hm|destruct m; left; reflexivity].
      - apply in_flat_map in Hn as (c & Hc & Hn). apply in_flat_map. exists c. split; [exact Hc|].
        rewrite Forall_forall in IHc. pose proof (IHc c Hc n Hn m Hm) as G. destruct c. right. exact G. }
    eapply Q; [apply pos_node; exact P|exact H].
  Qed.
  Lemma in_root l : at_ l -> In (l_node l) (all_nodes root).
  Proof. intros [P _]. apply pos_node. exact P. Qed.
  Lemma calm_kind l : at_ l -> kind_in (kind l) body_kinds = false -> calm l.
  Proof.
    intros A H. unfold calm. destruct (dangling (bk (l_node l))) eqn:E; [reflexivity|]. exfalso.
    destruct (alone_bodies (l_node l) (in_root l A)) as [K _]; [rewrite E; discriminate|]. unfold kind in H. congruence.
  Qed.
  Lemma calm_field l f : at_ l -> n_field (l_node l) = Some f -> kind_in f body_fields = false -> calm l.
  Proof.
    intros A F H. unfold calm. destruct (dangling (bk (l_node l))) eqn:E; [reflexivity|]. exfalso.
    destruct (alone_bodies (l_node l) (in_root l A)) as [_ K]; [rewrite E; discriminate|]. unfold in_body in K. rewrite F in K. congruence.
  Qed.
  Lemma quiet_kind l : at_ l -> kind_in (kind l) member_kinds = false -> post (bk (l_node l)) = [].
  Proof.
    intros A H. destruct (post (bk (l_node l))) eqn:E; [reflexivity|]. exfalso.
    destruct (behind_members (l_node l) (in_root l A)) as [K _]; [rewrite E; discriminate|]. unfold kind in H. congruence.
  Qed.
  Lemma quiet_field l f : at_ l -> n_field (l_node l) = Some f -> post (bk (l_node l)) = [].
  Proof.
    intros A F. destruct (post (bk (l_node l))) eqn:E; [reflexivity|]. exfalso.
    destruct (behind_members (l_node l) (in_root l A)) as [_ K]; [rewrite E; discriminate|]. congruence.
  Qed.
  Lemma out_quiet l : post (bk (l_node l)) = [] -> out l = Neat.
  Proof. intro H. unfold out, behind. rewrite H. reflexivity. Qed.
  Lemma out_Open l : le (out l) Open.
  Proof. unfold out, behind. destruct (is_nil _); exact I. Qed.
  Lemma KL_quiet s l x : post (bk (l_node l)) = [] -> KL s l x -> KK s x.
  Proof. intros H G. destruct s; try exact G; cbn [KL KK quit_at quit] in *; rewrite (out_quiet l H) in G; exact G. Qed.
  Lemma field_of f n : has_field f n = true -> n_field n = Some f.
  Proof. unfold has_field. destruct (n_field n); [|discriminate]. intro H. apply String.eqb_eq in H as ->. reflexivity. Qed.
  Lemma kind_of k l : is_kind k l = true -> kind l = k.
  Proof. apply String.eqb_eq. Qed.
  Lemma check_kind k l u : assert_check k l = Ok u -> kind l = k.
  Proof. unfold assert_check. destruct (is_kind k l) eqn:E; [|discriminate]. intros _. apply String.eqb_eq, E. Qed.
  Lemma calm_check k l u : at_ l -> assert_check k l = Ok u -> kind_in k body_kinds = false -> calm l.
  Proof. intros A H Q. apply calm_kind; [exact A|]. rewrite (check_kind _ _ _ H). exact Q. Qed.
  Lemma calm_is k l : at_ l -> is_kind k l = true -> kind_in k body_kinds = false -> calm l.
  Proof. intros A H Q. apply calm_kind; [exact A|]. rewrite (kind_of _ _ H). exact Q. Qed.
  Lemma still_is k l : at_ l -> is_kind k l = true -> kind_in k body_kinds = false -> kind_in k member_kinds = false -> still l.
  Proof. intros A H Q R. split; [apply calm_kind|apply quiet_kind]; try exact A; rewrite (kind_of _ _ H); assumption. Qed.
  Lemma still_check k l u : at_ l -> assert_check k l = Ok u -> kind_in k body_kinds = false -> kind_in k member_kinds = false -> still l.
  Proof. intros A H Q R. split; [apply calm_kind|apply quiet_kind]; try exact A; rewrite (check_kind _ _ _ H); assumption. Qed.
  Lemma still_in ks l : at_ l -> kind_in (kind l) ks = true ->
    forallb (fun k => negb (kind_in k body_kinds) && negb (kind_in k member_kinds)) ks = true -> still l.
  Proof.
    intros A K F. apply LayoutNew.kind_in_in in K. rewrite forallb_forall in F. apply F in K.
    apply Bool.andb_true_iff in K as [K1 K2]. apply Bool.negb_true_iff in K1. apply Bool.negb_true_iff in K2.
    split; [apply calm_kind|apply quiet_kind]; assumption.
  Qed.
  Lemma still_n f l c : pos root l -> try_c_by_n f l = Some c -> kind_in f body_fields = false -> still c.
  Proof.
    intros P H Q. pose proof (near_n _ _ _ H) as N. apply find_some in H as [_ H]. apply field_of in H.
    assert (A : at_ c) by (eapply at_kid; eassumption). split; [eapply calm_field|eapply quiet_field]; eassumption.
  Qed.
  Definition silent (l : loc) : Prop := post (bk (l_node l)) = [].
  Lemma silent_n f l c : pos root l -> try_c_by_n f l = Some c -> silent c.
  Proof.
    intros P H. pose proof (near_n _ _ _ H) as N. apply find_some in H as [_ H]. apply field_of in H.
    eapply quiet_field; [eapply at_kid; eassumption|exact H].
  Qed.
  Lemma still_k k l c : pos root l -> try_c_by_k k l = Some c -> kind_in k body_kinds = false -> kind_in k member_kinds = false -> still c.
  Proof.
    intros P H Q R. pose proof (near_k _ _ _ H) as N. apply find_some in H as [_ H]. eapply still_is; try eassumption. eapply at_kid; eassumption.
  Qed.
  Lemma r_rec s l x : at_ l -> (blind s = true -> calm l) -> rec s l = Ok x -> KL s l x.
  Proof. apply IH. Qed.
  Lemma r_tame s l x : at_ l -> tame s = true -> (blind s = true -> calm l) -> rec s l = Ok x -> KK s x.
  Proof.
    intros A T B H. eapply KL_quiet; [|eapply IH; eassumption]. apply quiet_kind; [exact A|].
    destruct (kind_in (kind l) member_kinds) eqn:K; [|reflexivity]. destruct (IHT _ _ _ T K H).
  Qed.
  Lemma r_field s l f x : at_ l -> n_field (l_node l) = Some f -> implb (blind s) (negb (kind_in f body_fields)) = true ->
    rec s l = Ok x -> KK s x.
  Proof.
    intros A F B H. eapply KL_quiet; [eapply quiet_field; eassumption|]. eapply IH; [exact A| |exact H]. intro Q. rewrite Q in B. cbn [implb] in B.
    eapply calm_field; [exact A|exact F|]. apply Bool.negb_true_iff, B.
  Qed.
  Lemma r_silent s l x : at_ l -> silent l -> (blind s = true -> calm l) -> rec s l = Ok x -> KK s x.
  Proof. intros A S B H. eapply KL_quiet; [exact S|]. eapply IH; eassumption. Qed.
  Definition easy (k : string) (s : sort) : bool :=
    implb (blind s) (negb (kind_in k body_kinds)) && (tame s || negb (kind_in k member_kinds)).
  Lemma r_kind s l k x : at_ l -> is_kind k l = true -> easy k s = true -> rec s l = Ok x -> KK s x.
  Proof.
    intros A K B H. apply Bool.andb_true_iff in B as [B C].
    assert (Q : blind s = true -> calm l).
    { intro Q. rewrite Q in B. eapply calm_is; [exact A|exact K|]. apply Bool.negb_true_iff, B. }
    destruct (tame s) eqn:T; [eapply r_tame; eassumption|]. eapply KL_quiet; [|eapply IH; eassumption].
    apply quiet_kind; [exact A|]. rewrite (kind_of _ _ K). apply Bool.negb_true_iff, C.
  Qed.
  Definition free (s : sort) : bool := tame s && negb (blind s).
  Lemma r_free s l x : at_ l -> free s = true -> rec s l = Ok x -> KK s x.
  Proof.
    intros A F H. apply Bool.andb_true_iff in F as [T B]. apply Bool.negb_true_iff in B. eapply r_tame; try eassumption. congruence.
  Qed.
  Lemma r_by_n f s l x : pos root l -> implb (blind s) (negb (kind_in f body_fields)) = true -> by_n rec f s l = Ok x -> KK s x.
  Proof.
    intros P B H. unfold by_n in H. apply bind_inv in H as (c & E & H). apply must_inv in E. pose proof (near_n _ _ _ E) as N.
    apply find_some in E as [_ E]. eapply r_field; [eapply at_kid; eassumption|apply field_of; exact E|exact B|exact H].
  Qed.
  Lemma r_by_k k s l x : pos root l -> easy k s = true -> by_k rec k s l = Ok x -> KK s x.
  Proof.
    intros P B H. unfold by_k in H. apply bind_inv in H as (c & E & H). apply must_inv in E. pose proof (near_k _ _ _ E) as N.
    apply find_some in E as [_ E]. eapply r_kind; [eapply at_kid; eassumption|exact E|exact B|exact H].
  Qed.
  Lemma r_fst s l x : pos root l -> free s = true -> fst_c rec s l = Ok x -> KK s x.
  Proof.
    intros P B H. unfold fst_c in H. apply bind_inv in H as (c & E & H). apply must_inv, near_first in E.
    eapply r_free; [eapply at_kid; eassumption|exact B|exact H].
  Qed.
  Definition lone (s : sort) (ds : list dt) : Prop := ds = [] \/ exists d, ds = [d] /\ KK s d.
  Lemma r_opt_k k s l ds : pos root l -> easy k s = true -> opt_k rec k s l = Ok ds -> lone s ds.
  Proof.
    intros P B H. unfold opt_k in H. destruct (try_c_by_k k l) as [c|] eqn:E.
    - apply bind_inv in H as (d & E2 & H). injection H as <-. right. exists d. split; [reflexivity|].
      pose proof (near_k _ _ _ E) as N. apply find_some in E as [_ E]. eapply r_kind; [eapply at_kid; eassumption|exact E|exact B|exact E2].
    - injection H as <-. left. reflexivity.
  Qed.
  Lemma r_opt_n f s l ds : pos root l -> implb (blind s) (negb (kind_in f body_fields)) = true -> opt_n rec f s l = Ok ds -> lone s ds.
  Proof.
    intros P B H. unfold opt_n in H. destruct (try_c_by_n f l) as [c|] eqn:E.
    - apply bind_inv in H as (d & E2 & H). injection H as <-. right. exists d. split; [reflexivity|].
      pose proof (near_n _ _ _ E) as N. apply find_some in E as [_ E]. eapply r_field; [eapply at_kid; eassumption|apply field_of; exact E|exact B|exact E2].
    - injection H as <-. left. reflexivity.
  Qed.
  Lemma r_map s cs ds : (forall c x, In c cs -> rec s c = Ok x -> KK s x) -> mapR (rec s) cs = Ok ds -> Forall (KK s) ds.
  Proof.
    intros P. revert ds. induction cs as [|c cs IHc]; intros ds H; cbn [mapR] in H.
    - injection H as <-. constructor.
    - apply bind_inv in H as (d & E & H). apply bind_inv in H as (ds' & E' & H). injection H as <-. constructor.
      + eapply P; [left; reflexivity|exact E].
      + apply IHc; [|exact E']. intros x y Hx. apply P. right. exact Hx.
  Qed.
  Definition some (s : sort) (ds : list dt) : Prop := exists d r, ds = d :: r /\ KK s d /\ Forall (KK s) r.
  Lemma r_map1 s cs ds : cs <> [] -> (forall c x, In c cs -> rec s c = Ok x -> KK s x) -> mapR (rec s) cs = Ok ds -> some s ds.
  Proof.
    intros N P H. destruct cs as [|c cs]; [congruence|]. pose proof (r_map s _ _ P H) as G.
    cbn [mapR] in H. apply bind_inv in H as (d & E & H). apply bind_inv in H as (ds' & E' & H). injection H as <-.
    inversion G; subst. exists d, ds'. auto.
  Qed.
  Lemma each_k k s l : pos root l -> easy k s = true -> forall c x, In c (try_cs_by_k k l) -> rec s c = Ok x -> KK s x.
  Proof.
    intros P B c x Hc H. pose proof (near_ks _ _ _ Hc) as N. apply filter_In in Hc as [_ Hc].
    eapply r_kind; [eapply at_kid; eassumption|exact Hc|exact B|exact H].
  Qed.
  Lemma each_c s l : pos root l -> free s = true -> forall c x, In c (children_vec l) -> rec s c = Ok x -> KK s x.
  Proof. intros P B c x Hc H. apply near_vec in Hc. eapply r_free; [eapply at_kid; eassumption|exact B|exact H]. Qed.
  Lemma r_all_k k s l ds : pos root l -> easy k s = true -> all_k rec k s l = Ok ds -> Forall (KK s) ds.
  Proof. intros P B. apply r_map, (each_k k s l P B). Qed.
  Lemma r_all1_k k s l ds : pos root l -> easy k s = true -> all1_k rec k s l = Ok ds -> some s ds.
  Proof.
    intros P B H. unfold all1_k in H. apply bind_inv in H as (cs & E & H).
    assert (N : cs <> []) by (unfold cs_by_k in E; destruct (try_cs_by_k k l); [discriminate|]; injection E as <-; discriminate).
    apply cs_k_inv in E as ->.
    eapply r_map1; [exact N|exact (each_k k s l P B)|exact H].
  Qed.
  Lemma r_all1_n f s l ds : pos root l -> implb (blind s) (negb (kind_in f body_fields)) = true -> all1_n rec f s l = Ok ds -> some s ds.
  Proof.
    intros P B H. unfold all1_n in H. apply bind_inv in H as (cs & E & H).
    eapply r_map1; [| |exact H].
    - unfold cs_by_n in E. destruct (filter _ (kids l)); [discriminate|]. injection E as <-. discriminate.
    - intros c x Hc Hx. pose proof (cs_n_inv _ _ _ E c Hc) as N. assert (F : has_field f (l_node c) = true).
      { unfold cs_by_n in E. destruct (filter _ (kids l)) eqn:Fl; [discriminate|]. injection E as <-. rewrite <- Fl in Hc. apply filter_In in Hc. apply Hc. }
      eapply r_field; [eapply at_kid; eassumption|apply field_of; exact F|exact B|exact Hx].
  Qed.
  Lemma r_all_c s l ds : pos root l -> free s = true -> all_c rec s l = Ok ds -> Forall (KK s) ds.
  Proof. intros P B. apply r_map, (each_c s l P B). Qed.
  Definition tight_sort (s : sort) : Prop := entry s = Any /\ quit s = Neat.
  Lemma KK_tight s x : tight_sort s -> KK s x -> tight x.
  Proof. intros [E1 E2] H. destruct s; cbn [KK entry quit] in *; try discriminate; exact H. Qed.
  Lemma KL_loose s l x : tight_sort s -> KL s l x -> loose x.
  Proof.
    intros [E1 E2] H. destruct s; cbn [KL entry quit quit_at] in *; try discriminate; (eapply K1_up; [exact H|apply out_Open]).
  Qed.
  Lemma r_member s l d : at_ l -> tight_sort s -> blind s = false -> body_member cm checked rec s l = Ok d -> loose (fst d).
  Proof.
    intros P T B H. unfold body_member in H. apply bind_inv in H as (x & E & H). apply bind_inv in H as (tr & _ & H).
    injection H as <-. eapply KL_loose; [exact T|]. eapply r_rec; [exact P|congruence|exact E].
  Qed.
  Lemma r_members s cs ds : tight_sort s -> blind s = false -> (forall c, In c cs -> at_ c) ->
    mapR (body_member cm checked rec s) cs = Ok ds -> Forall (fun m => loose (fst m)) ds.
  Proof.
    intros T B P. revert ds. induction cs as [|c cs IHc]; intros ds H; cbn [mapR] in H.
    - injection H as <-. constructor.
    - apply bind_inv in H as (d & E & H). apply bind_inv in H as (ds' & E' & H). injection H as <-. constructor.
      + eapply r_member; eauto. apply P. left. reflexivity.
      + apply IHc; [|exact E']. intros x Hx. apply P. right. exact Hx.
  Qed.
  Lemma r_members_vec s l ds : tight_sort s -> blind s = false -> pos root l ->
    mapR (body_member cm checked rec s) (children_vec l) = Ok ds -> Forall (fun m => loose (fst m)) ds.
  Proof. intros T B P. apply r_members; [exact T|exact B|]. intros c Hc. apply near_vec in Hc. eapply at_kid; eassumption. Qed.
  Lemma lead_map f s : (forall c, is_ws (f c) = is_ws c) -> lead (map f s) = lead s.
  Proof. intro H. destruct s as [|c s]; [reflexivity|]. cbn. rewrite H. reflexivity. Qed.
  Lemma bordered_map f s : (forall c, is_ws (f c) = is_ws c) -> bordered s -> bordered (map f s).
  Proof. intros H [H1 H2]. unfold bordered, last_. rewrite <- map_rev, !lead_map by exact H. split; assumption. Qed.
  Lemma ws_upper c : is_ws (upper1 c) = is_ws c.
  Proof.
    unfold upper1. destruct ((97 <=? c)%N && (c <=? 122)%N) eqn:E; [|reflexivity].
    apply Bool.andb_true_iff in E as [E1 E2]. apply N.leb_le in E1. apply N.leb_le in E2. unfold is_ws.
    repeat match goal with
      | |- context [(?a <=? ?b)%N] => destruct (N.leb_spec a b); try lia
      | |- context [(?a =? ?b)%N] => destruct (N.eqb_spec a b); try lia
      end; reflexivity.
  Qed.
  Definition neat (l : loc) : Prop := fit false (value l) = true /\ bordered (value l).
  Lemma text_of l : neat l -> bordered (value l).
  Proof. intros [_ H]. exact H. Qed.
  Lemma pos_in l : pos root l -> In (l_node l) (all_nodes root).
  Proof. apply pos_node. Qed.
  Lemma fit_both b s : tidy b s = true -> (r_sparse strict = true -> sparse s = true) -> (r_single strict = true -> singles false s = true) -> fit b s = true.
  Proof.
    intros H G F. unfold fit. rewrite H. destruct (r_sparse strict); [rewrite G by reflexivity|rewrite Bool.orb_true_r];
      (destruct (r_single strict); [rewrite F by reflexivity|rewrite Bool.orb_true_r]); reflexivity.
  Qed.
  Lemma told_self l : at_ l -> told_alone (l_node l) = true -> neat l.
  Proof.
    intros [P Q] H. split; [apply fit_both; [exact (proj1 (spoken _ (pos_in _ P)) H)|intro Y; exact (proj1 (airy Y _ (pos_in _ P)) H)|intro Y; exact (proj1 (even Y _ (pos_in _ P)) H)]|]. apply sane; [exact Q|]. left. intro K.
    unfold told_alone in H. rewrite K in H. discriminate H.
  Qed.
  Lemma told_kind k l : at_ l -> is_kind k l = true -> kind_in k told_kinds = true -> neat l.
  Proof.
    intros T H K. apply told_self; [exact T|]. unfold told_alone. apply String.eqb_eq in H. rewrite H, K. reflexivity.
  Qed.
  Lemma told_k k l c : pos root l -> try_c_by_k k l = Some c -> kind_in k told_kinds = true -> neat c.
  Proof.
    intros P H K. pose proof (near_k _ _ _ H) as N. apply find_some in H as [_ H].
    eapply told_kind; [eapply at_kid; eassumption|exact H|exact K].
  Qed.
  Lemma told_n f l c : pos root l -> try_c_by_n f l = Some c -> kind_in f told_fields = true -> neat c.
  Proof.
    intros P H K. apply find_some in H as [N H]. split;
      [|apply sane; [eapply at_kid; eassumption|]; right; apply field_of in H; rewrite H; discriminate].
    apply kids_child in N. assert (TA : told_as (l_node l) (l_node c) = true); [|apply fit_both; [exact (proj2 (spoken _ (pos_in _ P)) _ N TA)|intro Y; exact (proj2 (airy Y _ (pos_in _ P)) _ N TA)|intro Y; exact (proj2 (even Y _ (pos_in _ P)) _ N TA)]].
    unfold told_as. unfold has_field in H. destruct (n_field (l_node c)) as [g|]; [|discriminate].
    apply String.eqb_eq in H as ->. rewrite K. reflexivity.
  Qed.
  Lemma told_at k f l c u : pos root l -> assert_check k l = Ok u -> try_c_by_n f l = Some c -> In (k, f) told_places -> neat c.
  Proof.
    intros P A H K. apply find_some in H as [N H]. split;
      [|apply sane; [eapply at_kid; eassumption|]; right; apply field_of in H; rewrite H; discriminate].
    apply kids_child in N. assert (TA : told_as (l_node l) (l_node c) = true); [|apply fit_both; [exact (proj2 (spoken _ (pos_in _ P)) _ N TA)|intro Y; exact (proj2 (airy Y _ (pos_in _ P)) _ N TA)|intro Y; exact (proj2 (even Y _ (pos_in _ P)) _ N TA)]].
    unfold assert_check in A. destruct (is_kind k l) eqn:Q; [|discriminate]. apply String.eqb_eq in Q.
    unfold told_as. unfold has_field in H. destruct (n_field (l_node c)) as [g|]; [|discriminate].
    apply String.eqb_eq in H as ->. rewrite Q. apply Bool.orb_true_iff. right. apply existsb_exists. exists (k, f).
    split; [exact K|]. cbn [fst snd]. rewrite !String.eqb_refl. reflexivity.
  Qed.
  Lemma tidy_lead b s : lead s = true -> tidy false s = tidy b s.
  Proof.
    destruct s as [|c s]; [discriminate|]. cbn [SeqEdges.lead tidy]. intro H. destruct (N.eqb_spec c c_nl) as [->|_]; [discriminate H|reflexivity].
  Qed.
  Lemma tidy_map f s : (forall c, is_ws (f c) = is_ws c) -> (forall c, (f c =? c_nl)%N = (c =? c_nl)%N) ->
    forall b, tidy b (map f s) = tidy b s.
  Proof.
    intros H1 H2. induction s as [|c s IHs]; intro b; [reflexivity|]. cbn [map tidy]. rewrite H2, !IHs. unfold is_blank.
    rewrite H1, H2. reflexivity.
  Qed.
  Lemma fit_lead b s : lead s = true -> fit false s = fit b s.
  Proof. intro H. unfold fit. rewrite (tidy_lead b s H). reflexivity. Qed.
  Lemma feeds_map f s : (forall c, (f c =? c_nl)%N = (c =? c_nl)%N) -> forall k, feeds k (map f s) = feeds k s.
  Proof. intro H. induction s as [|c s IHs]; intro k; [reflexivity|]. cbn [map feeds]. rewrite H, !IHs. reflexivity. Qed.
  Lemma singles_map f s : (forall c, (f c =? c_sp)%N = (c =? c_sp)%N) -> forall b, singles b (map f s) = singles b s.
  Proof. intro H. induction s as [|c s IHs]; intro b; [reflexivity|]. cbn [map singles]. rewrite H, !IHs. reflexivity. Qed.
  Lemma fit_map f s : (forall c, is_ws (f c) = is_ws c) -> (forall c, (f c =? c_nl)%N = (c =? c_nl)%N) -> (forall c, (f c =? c_sp)%N = (c =? c_sp)%N) ->
    forall b, fit b (map f s) = fit b s.
  Proof. intros H1 H2 H3 b. unfold fit, sparse. rewrite tidy_map, feeds_map, singles_map by assumption. reflexivity. Qed.
  Lemma nl_upper c : (upper1 c =? c_nl)%N = (c =? c_nl)%N.
  Proof.
    unfold upper1. destruct ((97 <=? c)%N && (c <=? 122)%N) eqn:E; [|reflexivity].
    apply Bool.andb_true_iff in E as [E1 E2]. apply N.leb_le in E1. apply N.leb_le in E2. unfold c_nl.
    destruct (N.eqb_spec (c - 32) 10), (N.eqb_spec c 10); lia.
  Qed.
  Lemma nl_lower c : (lower1 c =? c_nl)%N = (c =? c_nl)%N.
  Proof.
    unfold lower1. destruct ((65 <=? c)%N && (c <=? 90)%N) eqn:E; [|reflexivity].
    apply Bool.andb_true_iff in E as [E1 E2]. apply N.leb_le in E1. apply N.leb_le in E2. unfold c_nl.
    destruct (N.eqb_spec (c + 32) 10), (N.eqb_spec c 10); lia.
  Qed.
  Lemma sp_upper c : (upper1 c =? c_sp)%N = (c =? c_sp)%N.
  Proof.
    unfold upper1. destruct ((97 <=? c)%N && (c <=? 122)%N) eqn:E; [|reflexivity].
    apply Bool.andb_true_iff in E as [E1 E2]. apply N.leb_le in E1. apply N.leb_le in E2. unfold c_sp.
    destruct (N.eqb_spec (c - 32) 32), (N.eqb_spec c 32); lia.
  Qed.
  Lemma sp_lower c : (lower1 c =? c_sp)%N = (c =? c_sp)%N.
  Proof.
    unfold lower1. destruct ((65 <=? c)%N && (c <=? 90)%N) eqn:E; [|reflexivity].
    apply Bool.andb_true_iff in E as [E1 E2]. apply N.leb_le in E1. apply N.leb_le in E2. unfold c_sp.
    destruct (N.eqb_spec (c + 32) 32), (N.eqb_spec c 32); lia.
  Qed.
  Lemma front_lead s : lead s = true -> front_fine s.
  Proof. intros H _. destruct s as [|c s]; [reflexivity|]. unfold starts_with. cbn [strip_prefix]. destruct (N.eqb_spec c_sp c) as [<-|]; [discriminate H|reflexivity]. Qed.
  Lemma K1_bordered e s : bordered s -> fit false s = true -> K1 e (TTxt s) Neat.
  Proof.
    intros [H1 H2] H3. apply K1_const. unfold post_text. rewrite (fit_lead true s H1) in H3. pose proof (apart_ok e s (or_intror (front_lead s H1))) as A.
    destruct s; [discriminate|]. cbn [step1]. rewrite H2, H3, A. reflexivity.
  Qed.
  Lemma K1_value e l : at_ l -> neat l -> K1 e (TTxt (value l)) Neat.
  Proof. intros H N. apply K1_bordered; [apply text_of, N|exact (proj1 N)]. Qed.
  Lemma peek_in r n : peek r = Some n -> In n r.
  Proof. induction r as [|s r IHr]; [discriminate|]. cbn [peek]. destruct (n_extra s); [right; apply IHr; assumption|]. intro H. injection H as ->. left. reflexivity. Qed.
  Lemma child_in l n : pos root l -> In n (children (l_node l)) -> In n (all_nodes root).
  Proof. intros P H. destruct (child_kid l n H) as (c & Hc & <-). apply pos_node. eapply Pos_kid; eassumption. Qed.
  Lemma sign_from l : pos root l -> sign_ok (punct_from l).
  Proof.
    intro P. unfold punct_from. destruct (peek (l_right l)) as [n|] eqn:E; [|exact I]. apply peek_in in E.
    assert (Hn : In n (all_nodes root)).
    { destruct P as [|l c P Hc]; [destruct E|]. eapply child_in; [exact P|]. eapply kid_right; eassumption. }
    destruct (has_kind "," n) eqn:K1; [|destruct (has_kind ";" n) eqn:K2; [|exact I]]; apply (quiet_signs n Hn); unfold separator;
      unfold has_kind in *; [apply String.eqb_eq in K1 as ->|apply String.eqb_eq in K2 as ->]; reflexivity.
  Qed.
  Lemma sign_inner l : pos root l -> sign_ok (punct_from_inner l).
  Proof.
    intro P. unfold punct_from_inner. destruct (find _ _) as [n|] eqn:E; [|exact I]. apply find_some in E as [E K].
    apply (quiet_signs n (child_in l n P E)). unfold is_punctuation_node, has_kind in K. unfold separator.
    apply Bool.orb_true_iff in K as [K|K]; apply String.eqb_eq in K as ->; reflexivity.
  Qed.
  Lemma sign_new l n p : pos root l -> In n (children (l_node l)) -> punct_new n = Ok p -> sign_ok (Some p).
  Proof.
    intros P E H. pose proof (quiet_signs n (child_in l n P E)) as Q. unfold punct_new in H. unfold separator in Q.
    destruct (has_kind "," n) eqn:K1; [|destruct (has_kind ";" n) eqn:K2; [|discriminate]]; injection H as <-; apply Q;
      unfold has_kind in *; [apply String.eqb_eq in K1 as ->|apply String.eqb_eq in K2 as ->]; reflexivity.
  Qed.
  Lemma K1_plain e h x l body tail e' : plain_handling h -> x_id x = n_id (l_node l) -> sign_ok (x_punc x) -> calm l ->
    KD Any body Neat -> KD (out l) tail e' -> K1 e (TNode h x body tail) e'.
  Proof. intros H E S C H1 H2. unfold calm, out, bk in *. rewrite <- E in *. apply K1_node; assumption. Qed.
  Lemma K1_nodeP e l body : at_ l -> calm l -> KD Any body Neat -> K1 e (nodeP l body) (out l).
  Proof. intros A C H. apply K1_node; [exact I|apply sign_from, A|exact C|exact H|apply KD_nil]. Qed.
  Lemma K1_still e l body : at_ l -> still l -> KD Any body Neat -> K1 e (nodeP l body) Neat.
  Proof. intros A [C Q] H. rewrite <- (out_quiet l Q). apply K1_nodeP; assumption. Qed.
  Lemma K1_vn e l : at_ l -> neat l -> still l -> K1 e (vn l) Neat.
  Proof. intros P N S. apply K1_still; [exact P|exact S|]. eapply KD_cons; [apply K1_value; assumption|apply KD_nil]. Qed.
  Lemma K1_vnl e l : at_ l -> neat l -> still l -> K1 e (vn_lower l) Neat.
  Proof.
    intros P N S. apply K1_still; [exact P|exact S|]. eapply KD_cons; [apply K1_bordered|apply KD_nil].
    - apply bordered_map; [exact ws_lower|apply text_of, N].
    - unfold to_lowercase. rewrite fit_map; [exact (proj1 N)|exact ws_lower|exact nl_lower|exact sp_lower].
  Qed.
  Lemma K1_vnu e l : at_ l -> neat l -> still l -> K1 e (vn_upper l) Neat.
  Proof.
    intros P N S. apply K1_still; [exact P|exact S|]. eapply KD_cons; [apply K1_bordered|apply KD_nil].
    - apply bordered_map; [exact ws_upper|apply text_of, N].
    - unfold to_uppercase. rewrite fit_map; [exact (proj1 N)|exact ws_upper|exact nl_upper|exact sp_upper].
  Qed.
  Lemma K1_at e s l x m : K1 (entry s) x (quit_at s l) -> le e (entry s) -> quit_at s l = m -> K1 e x m.
  Proof. intros H L <-. eapply K1_weak; [exact H|exact L|apply le_refl]. Qed.
  Lemma K1_hyp e s x m : K1 (entry s) x (quit s) -> le e (entry s) -> quit s = m -> K1 e x m.
  Proof. intros H L <-. eapply K1_weak; [exact H|exact L|apply le_refl]. Qed.
  Lemma KK_all s l : tight_sort s -> Forall (KK s) l -> Forall tight l.
  Proof. intro T. apply Forall_impl. intros x. apply KK_tight, T. Qed.

  Lemma K1_decls1 e d ds : Forall tight (d :: ds) -> K1 e (declarators_doc (d :: ds)) Neat.
  Proof.
    intro H. unfold declarators_doc. destruct ds as [|d' ds].
    - inversion H; subst. eapply K1_weak; [eassumption|apply le_Any|apply le_refl].
    - eapply K1_group; [reflexivity|]. apply K1_indent, K1_inter1; [|exact H]. eexists. split; [vm_compute; reflexivity|exact I].
  Qed.
  Lemma next_pos l o c : In o (kids l) -> pos root l -> next_named o = Ok c -> at_ c.
  Proof. intros Ho P H. apply (next_named_in l) in H as [H _]; [|exact Ho]. eapply at_kid; eassumption. Qed.
  Lemma opt_at k l c : pos root l -> try_c_by_k k l = Some c -> at_ c.
  Proof. intros P H. apply near_k in H. eapply at_kid; eassumption. Qed.
  Lemma opt_at_n k l c : pos root l -> try_c_by_n k l = Some c -> at_ c.
  Proof. intros P H. apply near_n in H. eapply at_kid; eassumption. Qed.
  Lemma tidy_app b a c : tidy b a = true -> last_ a = true -> tidy false c = true -> tidy b (a ++ c) = true.
  Proof.
    intros H L C. revert b H L. induction a as [|x a IHa]; intros b H L; [discriminate L|].
    destruct a as [|y a].
    - cbn [app tidy] in *. unfold SeqEdges.last_ in L. cbn in L. unfold is_blank.
      apply Bool.negb_true_iff in L. rewrite L. cbn [andb]. destruct (x =? c_nl)%N; [|exact C]. apply Bool.andb_true_iff in H. rewrite (proj1 H). exact C.
    - assert (L' : last_ (y :: a) = true).
      { unfold SeqEdges.last_ in *. cbn [rev] in *. destruct (rev a ++ [y]) eqn:R; [destruct (rev a); discriminate R|]. exact L. }
      cbn [app] in *. cbn [tidy] in H |- *. destruct (x =? c_nl)%N.
      + apply Bool.andb_true_iff in H as [-> H]. exact (IHa false H L').
      + exact (IHa _ H L').
  Qed.
  Lemma last_app a c : c <> [] -> last_ (a ++ c) = last_ c.
  Proof.
    intro N. unfold SeqEdges.last_. rewrite rev_app_distr. destruct (rev c) eqn:R; [|reflexivity].
    apply (f_equal (@rev _)) in R. rewrite rev_involutive in R. contradiction.
  Qed.
  Lemma feeds_app a c : forall k, feeds k (a ++ c) = match feeds k a with Some m => feeds m c | None => None end.
  Proof.
    induction a as [|x a IHa]; intro k; [reflexivity|]. cbn [app feeds]. destruct (x =? c_nl)%N; [destruct (k <? 2)%nat; [apply IHa|reflexivity]|apply IHa].
  Qed.
  Lemma feeds_last a : last_ a = true -> forall k m, feeds k a = Some m -> m = 0.
  Proof.
    induction a as [|x a IHa]; intros L k m H; [discriminate L|]. destruct a as [|y a].
    - cbn [feeds] in H. unfold SeqEdges.last_ in L. cbn in L. destruct (N.eqb_spec x c_nl) as [->|_]; [discriminate L|]. injection H as <-. reflexivity.
    - assert (L' : last_ (y :: a) = true).
      { unfold SeqEdges.last_ in *. cbn [rev] in *. destruct (rev a ++ [y]) eqn:R; [destruct (rev a); discriminate R|]. exact L. }
      change (feeds k (x :: y :: a)) with (if (x =? c_nl)%N then (if (k <? 2)%nat then feeds (S k) (y :: a) else None) else feeds 0 (y :: a)) in H.
      destruct (x =? c_nl)%N; [destruct (k <? 2)%nat; [|discriminate]|]; (eapply IHa; [exact L'|exact H]).
  Qed.
  Lemma sparse_app a c : sparse a = true -> last_ a = true -> sparse c = true -> sparse (a ++ c) = true.
  Proof.
    unfold sparse. intros H L C. rewrite feeds_app. destruct (feeds 0 a) as [m|] eqn:E; [|discriminate]. rewrite (feeds_last a L _ _ E). exact C.
  Qed.
  Lemma singles_app a c : last_ a = true -> singles false c = true -> forall b, singles b a = true -> singles b (a ++ c) = true.
  Proof.
    intros L C. induction a as [|x a IHa]; intros b H; [discriminate L|]. destruct a as [|y a].
    - cbn [app singles] in *. unfold SeqEdges.last_ in L. cbn in L. destruct (N.eqb_spec x c_sp) as [->|_]; [discriminate L|]. exact C.
    - assert (L' : last_ (y :: a) = true).
      { unfold SeqEdges.last_ in *. cbn [rev] in *. destruct (rev a ++ [y]) eqn:R; [destruct (rev a); discriminate R|]. exact L. }
      change (singles b ((x :: y :: a) ++ c)) with (if (x =? c_sp)%N then negb b && singles true ((y :: a) ++ c) else singles false ((y :: a) ++ c)).
      change (singles b (x :: y :: a)) with (if (x =? c_sp)%N then negb b && singles true (y :: a) else singles false (y :: a)) in H.
      destruct (x =? c_sp)%N; [|apply IHa; assumption]. apply andb_prop in H as [-> H]. apply IHa; assumption.
  Qed.
  Lemma fit_app b a c : fit b a = true -> last_ a = true -> fit false c = true -> fit b (a ++ c) = true.
  Proof.
    unfold fit. intros H L C. apply andb_prop in H as [H1 H], C as [C1 C]. apply andb_prop in H as [H2 H3], C as [C2 C3].
    apply fit_both; [apply tidy_app; assumption| |]; intro E; rewrite E, Bool.orb_false_r in *; [apply sparse_app|apply singles_app]; assumption.
  Qed.
  Lemma fit_seen b c s : is_ws c = false -> fit b (c :: s) = fit false s.
  Proof.
    intro H. unfold fit, sparse, is_blank. cbn [tidy feeds singles]. unfold is_blank. rewrite H.
    destruct (N.eqb_spec c c_nl) as [->|_]; [discriminate H|]. destruct (N.eqb_spec c c_sp) as [->|_]; [discriminate H|reflexivity].
  Qed.
  Lemma singles_lead b s : lead s = true -> singles b s = singles false s.
  Proof. destruct s as [|c s]; [discriminate|]. intro H. cbn [singles]. destruct (N.eqb_spec c c_sp) as [->|_]; [discriminate H|reflexivity]. Qed.
  Lemma fit_blank b s : lead s = true -> fit b (c_sp :: s) = fit true s.
  Proof. intro H. unfold fit. change (singles false (c_sp :: s)) with (singles true s). rewrite (singles_lead true s H). reflexivity. Qed.
  Lemma K1_quoted e l : at_ l -> neat l -> K1 e (TTxt (U "'" ++ value l ++ U "'")) Neat.
  Proof.
    intros P N. pose proof (text_of l N) as [B1 B2]. apply K1_bordered.
    - split; [reflexivity|]. rewrite app_assoc, last_app by discriminate. reflexivity.
    - cbn [app]. change (fit false (39%N :: (value l ++ U "'")) = true). rewrite fit_seen by reflexivity. apply fit_app; [exact (proj1 N)|exact B2|reflexivity].
  Qed.
  Lemma K1_spaced e l : at_ l -> neat l -> e <> Any -> K1 e (TTxt (c_sp :: value l ++ [c_sp])) Any.
  Proof.
    intros P N NA. pose proof (text_of l N) as [B1 B2]. apply K1_const. unfold post_text. cbn [step1].
    assert (Q : fit true (c_sp :: value l ++ [c_sp]) = true).
    { rewrite fit_blank by (destruct (value l); [discriminate B1|exact B1]). apply fit_app; [rewrite <- (fit_lead true _ B1); exact (proj1 N)|exact B2|reflexivity]. }
    rewrite Q. assert (R : last_ (c_sp :: value l ++ [c_sp]) = false).
    { change (c_sp :: value l ++ [c_sp]) with ((c_sp :: value l) ++ [c_sp]). rewrite last_app by discriminate. reflexivity. }
    rewrite R, (apart_ok e _ (or_introl NA)). reflexivity.
  Qed.
  Lemma K1_dated e a b : at_ a -> neat a -> at_ b -> neat b -> K1 e (TTxt (to_uppercase (value a) ++ U ":" ++ value b)) Neat.
  Proof.
    intros P N P' N'. pose proof (bordered_map upper1 _ ws_upper (text_of a N)) as [B1 B2]. pose proof (text_of b N') as [C1 C2].
    assert (NB : value b <> []) by (destruct (value b); [discriminate C1|discriminate]).
    apply K1_bordered.
    - split; [|rewrite app_assoc, last_app by exact NB; exact C2]. unfold to_uppercase. destruct (map upper1 (value a)); [discriminate B1|exact B1].
    - apply fit_app; [unfold to_uppercase; rewrite fit_map; [exact (proj1 N)|exact ws_upper|exact nl_upper|exact sp_upper]|exact B2|]. exact (proj1 N').
  Qed.
  Lemma vn_all k l : pos root l -> kind_in k told_kinds = true -> Forall tight (map vn (try_cs_by_k k l)).
  Proof.
    intros P K. apply Forall_map, Forall_forall. intros c Hc. pose proof (near_ks _ _ _ Hc) as N. apply filter_In in Hc as [_ Hc].
    apply K1_vn; [eapply at_kid; eassumption|eapply told_kind; [eapply at_kid; eassumption|exact Hc|exact K]|].
    eapply (still_in told_kinds); [eapply at_kid; eassumption|rewrite (kind_of _ _ Hc); exact K|vm_compute; reflexivity].
  Qed.
  Lemma r_cs k l cs : pos root l -> kind_in k told_kinds = true -> cs_by_k k l = Ok cs ->
    exists u us, cs = u :: us /\ tight (vn u) /\ Forall tight (map vn us).
  Proof.
    intros P K H. pose proof (vn_all k l P K) as A. unfold cs_by_k in H. destruct (try_cs_by_k k l) as [|u us]; [discriminate|].
    injection H as <-. inversion A; subst. exists u, us. auto.
  Qed.
  Lemma told_in ks l : at_ l -> kind_in (kind l) ks = true -> forallb (fun k => kind_in k told_kinds) ks = true -> neat l.
  Proof.
    intros T K F. apply told_self; [exact T|]. apply LayoutNew.kind_in_in in K. rewrite forallb_forall in F. apply F in K.
    unfold told_alone. unfold kind in K. rewrite K. reflexivity.
  Qed.
  Lemma r_event k s : trigger_event_text k = Ok s -> tight (t s).
  Proof.
    unfold trigger_event_text. repeat match goal with |- (if ?b then _ else _) = _ -> _ => destruct b end; intro H; try discriminate H;
      injection H as <-; apply K1_const; vm_compute; reflexivity.
  Qed.
  Lemma filled_vec l : pos root l -> kind_in (kind l) listed_kinds = true -> children_vec l <> [].
  Proof.
    intros P K H. destruct (fi_list root grown _ (pos_in _ P) K) as (c & Hc & N & X & _).
    destruct (child_kid l c Hc) as (c' & Hc' & <-). assert (G : In c' (children_vec l)).
    { unfold children_vec, named_kids. apply filter_In. split; [apply filter_In; split; [exact Hc'|exact N]|]. unfold is_extra. rewrite X. reflexivity. }
    rewrite H in G. destruct G.
  Qed.
  Lemma r_all1_c s l ds : pos root l -> free s = true -> kind_in (kind l) listed_kinds = true -> all_c rec s l = Ok ds -> some s ds.
  Proof.
    intros P B K H. unfold all_c in H. eapply r_map1; [apply filled_vec; eassumption|exact (each_c s l P B)|exact H].
  Qed.
  Lemma sign_at n c : In n (all_nodes root) -> separator n = true -> sign_ok (Some (Punct c (n_id n))).
  Proof. intros H S. exact (quiet_signs n H S). Qed.
  Lemma child_k l k : has_child (l_node l) k -> exists c, try_c_by_k k l = Some c.
  Proof.
    intros (c & Hc & K & N). destruct (child_kid l c Hc) as (c' & Hc' & <-). destruct (try_c_by_k k l) as [d|] eqn:E; [exists d; reflexivity|].
    exfalso. unfold try_c_by_k in E. assert (G : In c' (named_kids l)) by (unfold named_kids; apply filter_In; split; [exact Hc'|exact N]).
    apply (find_none _ _ E) in G. unfold is_kind, has_kind in G. rewrite K, String.eqb_refl in G. discriminate.
  Qed.
  Lemma K1_anns e a l : Forall (KK Annotation) (a :: l) -> K1 e (TIntersperse (a :: l) (sepStr " ")) Open.
  Proof.
    intro H. inversion H as [|? ? Ha Hl]; subst. unfold K1. cbn [cseq map strung_seq].
    eapply K_app; [eapply K_weak; [exact Ha|apply le_Any|apply le_refl]|]. cbn [quit].
    apply (K_flat (fun y => ins_seq (sepStr " ") ++ y) Open Open Open); try exact I.
    clear H Ha. induction Hl as [|y l Hy HF IHl]; cbn [map]; constructor; [|exact IHl].
    eapply K_app; [|exact Hy]. apply K_run. vm_compute. reflexivity.
  Qed.
  Lemma parent_pos l p : pos root l -> parent l = Some p -> pos root p.
  Proof. intros P H. destruct P as [|l c P Hc]; [discriminate|]. apply kids_parent in Hc. congruence. Qed.
  Lemma K1_surround1 e x l sep o c m m' : fair sep -> Forall tight (x :: l) -> K e (ins_seq o) m -> K Neat (ins_seq c) m' ->
    K1 e (TSurround (x :: l) sep o c) m'.
  Proof.
    intros S HF HO HC. unfold K1. cbn [cseq]. eapply K_app; [exact HO|]. eapply K_app; [|exact HC].
    inversion HF; subst. apply K_strung1; assumption.
  Qed.
  Ltac place E := first [ let IN := fresh "IN" in pose proof E as IN; eapply at_kid in E; [|eassumption]; let P := fresh "P" in pose proof (proj1 E) as P | idtac ].
  Ltac hush_n E := let S := fresh "S" in
    first [ eassert (S : silent _) by (eapply silent_n; [|exact E]; eassumption) | idtac ]; let S := fresh "S" in
    first [ eassert (S : still _) by (eapply still_n; [|exact E|vm_compute; reflexivity]; eassumption) | idtac ].
  Ltac hush_k E := let S := fresh "S" in
    first [ eassert (S : still _) by (eapply still_k; [|exact E|vm_compute; reflexivity|vm_compute; reflexivity]; eassumption) | idtac ].
  Ltac tell_n E := hush_n E; let N := fresh "N" in
    first [ eassert (N : neat _) by (eapply told_n; [|exact E|vm_compute; reflexivity]; eassumption)
          | eassert (N : neat _) by (eapply told_at; [| |exact E|]; [eassumption|eassumption|cbn; tauto])
          | idtac ].
  Ltac tell_k E := hush_k E; let N := fresh "N" in
    first [ eassert (N : neat _) by (eapply told_k; [|exact E|vm_compute; reflexivity]; eassumption) | idtac ].
  Ltac jlisted := match goal with A : assert_check _ ?l = Ok _ |- kind_in (kind ?l) _ = true => rewrite (check_kind _ _ _ A); reflexivity
    | Q : is_kind _ ?l = true |- kind_in (kind ?l) _ = true => rewrite (kind_of _ _ Q); reflexivity end.
  Ltac jcalm := match goal with
    | H : calm ?l |- calm ?l => exact H
    | H : still ?l |- calm ?l => exact (proj1 H)
    | A : assert_check _ ?l = Ok _ |- calm ?l => eapply calm_check; [|exact A|vm_compute; reflexivity]; assumption
    | Q : is_kind _ ?l = true |- calm ?l => eapply calm_is; [|exact Q|vm_compute; reflexivity]; assumption
    end.
  Ltac jsilent := match goal with
    | H : silent ?l |- silent ?l => exact H
    | H : still ?l |- silent ?l => exact (proj2 H)
    end.
  Ltac jcalms := first [ intro; discriminate | intros _; jcalm ].
  Ltac jstill := match goal with
    | H : still ?l |- still ?l => exact H
    | A : assert_check _ ?l = Ok _ |- still ?l => eapply still_check; [|exact A|vm_compute; reflexivity|vm_compute; reflexivity]; assumption
    | Q : is_kind _ ?l = true |- still ?l => eapply still_is; [|exact Q|vm_compute; reflexivity|vm_compute; reflexivity]; assumption
    | Q : kind_in (kind ?l) _ = true |- still ?l => eapply still_in; [|exact Q|vm_compute; reflexivity]; assumption
    end.
  Ltac sort_fact E :=
    lazymatch type of E with
    | by_n _ _ _ _ = Ok _ => eapply r_by_n in E; [|eassumption|reflexivity]
    | by_k _ _ _ _ = Ok _ => eapply r_by_k in E; [|eassumption|reflexivity]
    | fst_c _ _ _ = Ok _ => eapply r_fst in E; [|eassumption|reflexivity]
    | opt_k _ _ _ _ = Ok _ => eapply r_opt_k in E; [|eassumption|reflexivity]; destruct E as [->|(? & -> & E)]
    | opt_n _ _ _ _ = Ok _ => eapply r_opt_n in E; [|eassumption|reflexivity]; destruct E as [->|(? & -> & E)]
    | all_k _ _ _ _ = Ok _ => eapply r_all_k in E; [|eassumption|reflexivity]
    | all1_k _ _ _ _ = Ok _ => eapply r_all1_k in E; [|eassumption|reflexivity]; destruct E as (? & ? & -> & E & ?)
    | all1_n _ _ _ _ = Ok _ => eapply r_all1_n in E; [|eassumption|reflexivity]; destruct E as (? & ? & -> & E & ?)
    | all_c _ _ _ = Ok _ => first [ eapply r_all1_c in E; [|eassumption|reflexivity|jlisted]; destruct E as (? & ? & -> & E & ?) | eapply r_all_c in E; [|eassumption|reflexivity] ]
    | mapR (body_member _ _ _ _) (children_vec _) = Ok _ => eapply r_members_vec in E; [|split; reflexivity|reflexivity|eassumption]
    | vn_n _ _ = Ok _ => apply rmap_inv in E as (? & E & ->); apply must_inv in E; tell_n E; apply near_n in E; place E
    | vn_k _ _ = Ok _ => apply rmap_inv in E as (? & E & ->); apply must_inv in E; tell_k E; apply near_k in E; place E
    | cvalue_by_n _ _ = Ok _ => apply rmap_inv in E as (? & E & ->); apply must_inv in E; tell_n E; apply near_n in E; place E
    | cvalue_by_k _ _ = Ok _ => apply rmap_inv in E as (? & E & ->); apply must_inv in E; tell_k E; apply near_k in E; place E
    | c_by_n _ _ = Ok _ => apply must_inv in E; tell_n E; apply near_n in E; place E
    | c_by_k _ _ = Ok _ => apply must_inv in E; tell_k E; apply near_k in E; place E
    | cs_by_k _ _ = Ok _ => try (eapply r_cs in E; [|eassumption|vm_compute; reflexivity]; destruct E as (? & ? & -> & ? & ?); cbn [map])
    | find (is_kind _) (kids _) = Some _ => let N := fresh "Q" in apply find_some in E as [E N]; place E
    | trigger_event_text _ = Ok _ => apply r_event in E
    | first_c _ = Ok _ => apply must_inv, near_first in E; place E
    | try_c_by_n _ _ = Some _ => tell_n E; apply near_n in E; place E
    | try_c_by_k _ _ = Some _ => tell_k E; let B := fresh "B" in pose proof (proj2 (find_some _ _ E)) as B; apply near_k in E; place E
    | try_first_c _ = Some _ => apply near_first in E; place E
    | next_named _ = Ok _ => try (eapply next_pos in E; [|eassumption|eassumption]); try let P := fresh "P" in pose proof (proj1 E) as P
    | rec _ _ = Ok _ => first [ eapply r_free in E; [|eassumption|reflexivity] | eapply r_silent in E; [|eassumption|jsilent|jcalms] | eapply r_rec in E; [|eassumption|jcalms] | idtac ]
    | _ => idtac
    end.
  Ltac split_new H :=
    lazymatch type of H with
    | rbind _ _ = Ok _ =>
        let a := fresh "v" in let E := fresh "E" in
        apply bind_inv in H as (a & E & H); split_new E; split_new H
    | wrap_r _ = Ok _ => let a := fresh "v" in unfold wrap_r in H; apply rmap_inv in H as (a & H & ->); split_new H
    | rmap _ _ = Ok _ => let a := fresh "v" in apply rmap_inv in H as (a & H & ->); split_new H
    | (if ?b then _ else _) = Ok _ => let Q := fresh "Q" in destruct b eqn:Q; split_new H
    | match ?o with Some _ => _ | None => _ end = Ok _ =>
        let Q := fresh "Q" in destruct o eqn:Q; [sort_fact Q|]; split_new H
    | Ok ?a = Ok ?b => injection H as H; subst
    | Panic _ = _ => discriminate H
    | unknown _ = _ => discriminate H
    | assert_check _ _ = _ => idtac
    | new_Dimensions _ = _ => unfold new_Dimensions in H; split_new H
    | new_This _ = _ => unfold new_This in H; split_new H
    | new_Super _ = _ => unfold new_Super in H; split_new H
    | new_BoolType _ = _ => unfold new_BoolType in H; split_new H
    | new_AllRowsClause _ = _ => unfold new_AllRowsClause in H; split_new H
    | new_SafeNavigationOperator _ = _ => unfold new_SafeNavigationOperator in H; split_new H
    | new_DateLiteralWithParam _ = _ => unfold new_DateLiteralWithParam in H; split_new H
    | new_Literal_ _ = _ => unfold new_Literal_ in H; split_new H
    | opt_dimensions_k _ = _ => unfold opt_dimensions_k in H; split_new H
    | get_comparsion _ _ = _ => unfold get_comparsion in H; split_new H
    | must _ _ = Ok _ => apply must_inv in H; sort_fact H
    | _ => sort_fact H
    end.

  Ltac les := first [apply le_refl | apply out_Open | apply le_Any | apply le_Neat | exact I | assumption].
  Ltac jsign := cbn [x_punc with_punctuation with_inner_punctuation without_punctuation];
    first [exact I | apply sign_from; assumption | apply sign_inner; assumption].
  Ltac jtext := vm_compute; reflexivity.
  Ltac jrun := apply K1_run; vm_compute; reflexivity.
  Ltac jneat := first [ assumption
    | match goal with Q : is_kind ?k ?l = true |- neat ?l => eapply told_kind; [assumption|exact Q|vm_compute; reflexivity]
                    | Q : kind_in (kind ?l) _ = true |- neat ?l => eapply told_in; [assumption|exact Q|vm_compute; reflexivity] end ].
  Ltac jfair := unfold fair; eexists; split; [vm_compute; reflexivity|exact I].
  Ltac jk := eexists; split; [vm_compute; reflexivity|apply le_refl].
  Ltac j1 :=
    lazymatch goal with
    | |- K1 _ (nodeP _ _) _ => first [eapply K1_still; [assumption|jstill|jd] | eapply K1_nodeP; [assumption|jcalm|jd]]
    | |- K1 _ (TNode HBracket _ _ _) _ => eapply K1_braces; [exact I|jd]
    | |- K1 _ (TNode HBracketNoPost _ _ _) _ => eapply K1_braces; [exact I|jd]
    | |- K1 _ (TNode _ _ _ _) _ => eapply K1_plain; [exact I|reflexivity|jsign|jcalm|jd|jd]
    | |- K1 _ (TConcat _) _ => eapply K1_concat; jd
    | |- K1 _ (wrap _) _ => eapply K1_concat; jd
    | |- K1 _ (TIndent _) _ => eapply K1_indent; j1
    | |- K1 _ (TDedent _) _ => eapply K1_dedent; j1
    | |- K1 _ (TGroup _) _ => eapply K1_group; [reflexivity|cbn [grp]; j1]
    | |- K1 _ (gc _) _ => eapply K1_group; [reflexivity|cbn [grp]; eapply K1_concat; jd]
    | |- K1 _ (gic _) _ => eapply K1_group; [reflexivity|cbn [grp]; eapply K1_indent, K1_concat; jd]
    | |- K1 _ (gsur _ _ _ _) _ => unfold gsur; eapply K1_group; [reflexivity|cbn [grp]; j1]
    | |- K1 _ (gparen _) _ => unfold gparen, gsur; eapply K1_group; [reflexivity|cbn [grp]; j1]
    | |- K1 _ (surr _ _ _ _ _) _ => unfold surr; j1
    | |- K1 _ (TSurround (_ :: _) _ _ _) _ => eapply K1_surround1; [jfair|jl|jk|jk]
    | |- K1 _ (TSurround _ _ _ _) _ => eapply K1_surround; [jfair|jl|jk|jk|jk]
    | |- K1 _ (TIntersperse (_ :: _) _) _ => eapply K1_inter1; [jfair|jl]
    | |- K1 _ (TIntersperse _ _) _ => eapply K1_inter; [jfair|jl|reflexivity]
    | |- K1 _ (TMembers (_ :: _)) _ => eapply K1_members1; assumption
    | |- K1 _ (TMembers _) _ => eapply K1_members; assumption
    | |- K1 _ (TSurroundMembers _ _ _) _ => eapply K1_smembers; assumption
    | |- K1 _ (declarators_doc (_ :: _)) _ => eapply K1_decls1; jl
    | |- K1 _ dot_navigation _ => unfold dot_navigation; j1
    | |- K1 _ (vn ?a) _ => first [match goal with H : tight (vn a) |- _ => eapply K1_weak; [exact H|les|apply le_refl] end|eapply K1_vn; [assumption|jneat|jstill]]
    | |- K1 _ (vn_lower _) _ => eapply K1_vnl; [assumption|jneat|jstill]
    | |- K1 _ (vn_upper _) _ => eapply K1_vnu; [assumption|jneat|jstill]
    | |- K1 _ (TPunct _) _ => apply K1_punct; assumption
    | |- K1 _ (TTxt (c_sp :: value _ ++ [c_sp])) _ => eapply K1_spaced; [assumption|jneat|discriminate]
    | |- K1 _ (TTxt (U "'" ++ _ ++ U "'")) _ => eapply K1_quoted; [assumption|jneat]
    | |- K1 _ (TTxt (to_uppercase (value _) ++ _ ++ value _)) _ => eapply K1_dated; [assumption|jneat|assumption|jneat]
    | |- K1 _ (TTxt (value _)) _ => eapply K1_value; [assumption|jneat]
    | |- K1 _ ?x _ => first [match goal with H : KK _ x |- _ => eapply (K1_hyp _ _ _ _ H); [les|reflexivity] | H : KL _ _ x |- _ => eapply (K1_at _ _ _ _ _ H); [les|reflexivity] | H : K1 Any x Neat |- _ => eapply K1_weak; [exact H|les|apply le_refl] | H : tight x |- _ => eapply K1_weak; [exact H|les|apply le_refl] | H : loose x |- _ => eapply K1_weak; [exact H|les|apply le_refl] end | jrun]
    end
  with jd :=
    lazymatch goal with
    | |- KD _ [] _ => apply KD_nil
    | |- KD _ (_ :: _) _ => eapply KD_cons; [j1|jd]
    | |- KD _ (_ ++ _) _ => eapply KD_app; [jd|jd]
    | |- KD _ (New.before _ _) _ => unfold New.before; cbn [is_nil]; jd
    | |- KD _ (New.after _ _) _ => unfold New.after; cbn [is_nil]; jd
    | |- KD _ ?l _ => match goal with H : Forall (KK _) l |- _ => eapply (KD_list _ _ _ _ _ H); [les|les|reflexivity] end
    end
  with jl :=
    lazymatch goal with
    | |- Forall tight [] => constructor
    | |- Forall tight (_ :: _) => first [assumption | match goal with H : Forall (KK _) ?l |- Forall tight ?l => refine (KK_all _ _ _ H); split; reflexivity end | constructor; [jw|jl]]
    | |- Forall tight (_ ++ _) => apply Forall_app; split; jl
    | |- Forall tight ?l => first [assumption | match goal with H : Forall (KK _) l |- _ => refine (KK_all _ _ _ H); split; reflexivity end]
    end
  with jw := unfold tight; eapply K1_up; [j1|les].
  Ltac cases := repeat match goal with
    | |- context [is_nil ?l] => is_var l; destruct l; cbn [is_nil]
    | |- context [if ?b then _ else _] => let Q := fresh "C" in destruct b eqn:Q
    | |- context [match ?o with Some _ => _ | None => _ end] => destruct o
    | |- context [match ?o with [] => _ | _ :: _ => _ end] => destruct o
    | |- context [declarators_doc ?l] => is_var l; destruct l
    end.
  Ltac sort_done :=
    unfold opt_vn_k; repeat match goal with |- context [opt_list vn (try_c_by_k ?k ?l)] => let Q := fresh "Q" in destruct (try_c_by_k k l) eqn:Q; cbn [opt_list]; [tell_k Q; eapply opt_at in Q; [|eassumption]|] end;
    try match goal with v : option (bool * bool) |- _ => destruct v as [[[] []]|]; cbn [orb app] end;
    try match goal with |- context [try_c_by_n ?k ?l] => let Q := fresh "Q" in destruct (try_c_by_n k l) eqn:Q; [tell_n Q; eapply opt_at_n in Q; [|eassumption]|] end;
    unfold loop_body; repeat match goal with |- context [is_semicolumn ?b] => destruct (is_semicolumn b) end; cbn [is_nil orb andb app New.before New.after];
    cases; cbn [is_nil orb andb app New.before New.after negb];
    unfold KL; cbn [entry quit_at]; (eapply K1_up; [j1|les]).

  Lemma Root_K l x : at_ l -> new_Root cm checked rec l = Ok x -> KL Root l x.
  Proof. intros _ _. exact I. Qed.
  Lemma ClassDeclaration_K l x : at_ l -> new_ClassDeclaration rec l = Ok x -> KL ClassDeclaration l x.
  Proof. intros T H. pose proof (proj1 T) as P. unfold new_ClassDeclaration in H. split_new H; sort_done. Qed.
  Lemma MethodDeclaration_K l x : at_ l -> new_MethodDeclaration rec l = Ok x -> KL MethodDeclaration l x.
  Proof. intros T H. pose proof (proj1 T) as P. unfold new_MethodDeclaration in H. split_new H; sort_done. Qed.
  Lemma FormalParameters_K l x : at_ l -> new_FormalParameters rec l = Ok x -> KL FormalParameters l x.
  Proof. intros T H. pose proof (proj1 T) as P. unfold new_FormalParameters in H. split_new H; sort_done. Qed.
  Lemma FormalParameter_K l x : at_ l -> new_FormalParameter rec l = Ok x -> KL FormalParameter l x.
  Proof. intros T H. pose proof (proj1 T) as P. unfold new_FormalParameter in H. split_new H; sort_done. Qed.
  Lemma SuperClass_K l x : at_ l -> new_SuperClass rec l = Ok x -> KL SuperClass l x.
  Proof. intros T H. pose proof (proj1 T) as P. unfold new_SuperClass in H. split_new H; sort_done. Qed.
  Lemma Modifiers_K l x : at_ l -> new_Modifiers rec l = Ok x -> KL Modifiers l x.
  Proof.
    intros T H. pose proof (proj1 T) as P. unfold new_Modifiers in H. split_new H.
    assert (SL : still l) by jstill. unfold KL. cbn [entry quit_at].
    eapply K1_node_any with (m := Any); [exact (proj2 SL)|exact (proj1 SL)| |apply KD_nil]. eapply KD_app.
    - eapply KD_list; [exact E0|apply le_refl|exact I|reflexivity].
    - cbn [join quit entry]. destruct v1 as [|m ms]; cbn [is_nil]; [apply KD_nil|].
      eapply KD_cons; [eapply K1_inter1; [jfair|exact (KK_all Modifier _ (conj eq_refl eq_refl) E1)]|].
      eapply KD_cons; [apply K1_run; vm_compute; reflexivity|apply KD_nil].
  Qed.
  Lemma Modifier_K l x : at_ l -> new_Modifier l = Ok x -> KL Modifier l x.
  Proof.
    intros T H. pose proof (proj1 T) as P. unfold new_Modifier in H. apply bind_inv in H as (? & CK0 & H).
    apply bind_inv in H as (c & _ & H). apply bind_inv in H as (s & E & H). injection H as <-.
    unfold KL. cbn [entry quit_at]. eapply K1_up; [apply K1_nodeP; [assumption|jcalm|]|les]. eapply KD_cons; [|apply KD_nil]. eapply K1_concat, KD_cons; [|apply KD_nil].
    unfold modifier_text in E. destruct (kind_in (kind c) _) eqn:Q.
    - injection E as <-. unfold kind_in in Q. apply existsb_exists in Q as (k & Hk & Q). apply String.eqb_eq in Q as ->.
      repeat (destruct Hk as [<-|Hk]; [apply K1_const; jtext|]). destruct Hk.
    - repeat match type of E with (if ?b then _ else _) = _ => destruct b end; try discriminate E;
        injection E as <-; apply K1_const; jtext.
  Qed.
  Lemma Annotation_K l x : at_ l -> new_Annotation rec l = Ok x -> KL Annotation l x.
  Proof.
    intros T H. pose proof (proj1 T) as P. unfold new_Annotation in H.
    apply bind_inv in H as (? & CK & H). pose proof CK as CK0. apply check_kind in CK. apply bind_inv in H as (args & E & H).
    assert (HA : KD Neat args Neat).
    { unfold opt_n in E. destruct (try_c_by_n "arguments" l) as [c|] eqn:Q; [|injection E as <-; apply KD_nil].
      apply bind_inv in E as (d & E & E2). injection E2 as <-. pose proof Q as Q'. apply near_n in Q.
      eapply KD_cons; [|apply KD_nil]. eapply IHA; [eapply at_kid; eassumption| |exact E].
      apply find_some in Q' as [_ Q']. apply (fi_args root grown (l_node l)); [apply pos_in, P|exact CK|apply kids_child, Q|].
      unfold has_field in Q'. destruct (n_field (l_node c)); [|discriminate]. apply String.eqb_eq in Q'. congruence. }
    split_new H. unfold KL. cbn [entry quit_at]. assert (SL : still l) by jstill.
    eapply K1_plain with (l := l); [exact I|reflexivity|jsign|jcalm| |].
    - eapply KD_cons; [apply K1_run; vm_compute; reflexivity|]. eapply KD_cons; [j1|exact HA].
    - rewrite (out_quiet l (proj2 SL)). eapply KD_cons; [apply K1_run; vm_compute; reflexivity|apply KD_nil].
  Qed.
  Lemma AnnotationArgumentList_K l x : at_ l -> new_AnnotationArgumentList rec l = Ok x -> KL AnnotationArgumentList l x.
  Proof. intros _ _. exact I. Qed.
  Lemma args_K l x : at_ l -> kind l = "annotation_argument_list" -> new_AnnotationArgumentList rec l = Ok x -> K1 Neat x Neat.
  Proof.
    intros T K H. pose proof (proj1 T) as P. assert (A : assert_check "annotation_argument_list" l = Ok tt).
    { unfold assert_check, is_kind, has_kind. unfold kind in K. rewrite K. reflexivity. }
    unfold new_AnnotationArgumentList in H. split_new H; (eapply K1_up; [j1|les]).
  Qed.
  Lemma AnnotationKeyValue_K l x : at_ l -> new_AnnotationKeyValue l = Ok x -> KL AnnotationKeyValue l x.
  Proof. intros T H. pose proof (proj1 T) as P. unfold new_AnnotationKeyValue in H. split_new H; sort_done. Qed.
  Lemma ClassBody_K l x : at_ l -> new_ClassBody cm checked rec l = Ok x -> KL ClassBody l x.
  Proof. intros T H. pose proof (proj1 T) as P. unfold new_ClassBody in H. split_new H; sort_done. Qed.
  Lemma FieldDeclaration_K l x : at_ l -> new_FieldDeclaration rec l = Ok x -> KL FieldDeclaration l x.
  Proof. intros T H. pose proof (proj1 T) as P. unfold new_FieldDeclaration in H. split_new H; sort_done. Qed.
  Lemma ArrayInitializer_K l x : at_ l -> new_ArrayInitializer rec l = Ok x -> KL ArrayInitializer l x.
  Proof. intros T H. pose proof (proj1 T) as P. unfold new_ArrayInitializer in H. split_new H; sort_done. Qed.
  Lemma AssignmentExpression_K l x : at_ l -> new_AssignmentExpression rec l = Ok x -> KL AssignmentExpression l x.
  Proof. intros T H. pose proof (proj1 T) as P. unfold new_AssignmentExpression in H. split_new H; sort_done. Qed.
  Lemma AssignmentLeft_K l x : at_ l -> new_AssignmentLeft rec l = Ok x -> KL AssignmentLeft l x.
  Proof. intros T H. pose proof (proj1 T) as P. unfold new_AssignmentLeft in H. split_new H; sort_done. Qed.
  Lemma Block_K l x : at_ l -> new_Block cm checked rec l = Ok x -> KL Block l x.
  Proof. intros T H. pose proof (proj1 T) as P. unfold new_Block in H. split_new H; sort_done. Qed.
  Lemma Interface__K l x : at_ l -> new_Interface rec l = Ok x -> KL Interface_ l x.
  Proof. intros T H. pose proof (proj1 T) as P. unfold new_Interface in H. split_new H; sort_done. Qed.
  Lemma TypeList_K l x : at_ l -> new_TypeList rec l = Ok x -> KL TypeList l x.
  Proof. intros T H. pose proof (proj1 T) as P. unfold new_TypeList in H. split_new H; sort_done. Qed.
  Lemma ObjectExpression_K l x : at_ l -> new_ObjectExpression rec l = Ok x -> KL ObjectExpression l x.
  Proof. intros T H. pose proof (proj1 T) as P. unfold new_ObjectExpression in H. split_new H; sort_done. Qed.
  Lemma MethodInvocation_K l x : at_ l -> new_MethodInvocation rec l = Ok x -> KL MethodInvocation l x.
  Proof. intros T H. pose proof (proj1 T) as P. unfold new_MethodInvocation in H. split_new H; sort_done. Qed.
  Lemma TypeArguments_K l x : at_ l -> calm l -> new_TypeArguments rec l = Ok x -> KL TypeArguments l x.
  Proof. intros T CA H. pose proof (proj1 T) as P. unfold new_TypeArguments in H. split_new H; sort_done. Qed.
  Lemma ArgumentList_K l x : at_ l -> calm l -> new_ArgumentList rec l = Ok x -> KL ArgumentList l x.
  Proof. intros T CA H. pose proof (proj1 T) as P. unfold new_ArgumentList in H. split_new H; sort_done. Qed.
  Lemma BinaryExpression_K l x : at_ l -> new_BinaryExpression rec l = Ok x -> KL BinaryExpression l x.
  Proof.
    intros T H. pose proof (proj1 T) as P. unfold new_BinaryExpression in H.
    apply bind_inv in H as (? & CK0 & H). apply bind_inv in H as (a & E1 & H). sort_fact E1.
    apply bind_inv in H as (o & _ & H). apply bind_inv in H as (c & E2 & H). sort_fact E2.
    apply bind_inv in H as (prec & E3 & H). apply bind_inv in H as (p & _ & H). apply bind_inv in H as (same & _ & H). injection H as <-.
    assert (O : tight (t (kind o))).
    { unfold get_precedence in E3. repeat match type of E3 with (if kind_in ?k ?l then _ else _) = _ => let Q := fresh "Q" in destruct (kind_in k l) eqn:Q;
        [apply LayoutNew.kind_in_in in Q; repeat (destruct Q as [<-|Q]; [apply K1_const; vm_compute; reflexivity|]); destruct Q|] end. discriminate E3. }
    sort_done.
  Qed.
  Lemma LocalVariableDeclaration_K l x : at_ l -> new_LocalVariableDeclaration rec l = Ok x -> KL LocalVariableDeclaration l x.
  Proof. intros T H. pose proof (proj1 T) as P. unfold new_LocalVariableDeclaration in H. split_new H; sort_done. Qed.
  Lemma VariableDeclarator_K l x : at_ l -> new_VariableDeclarator rec l = Ok x -> KL VariableDeclarator l x.
  Proof.
    intros T H. pose proof (proj1 T) as P. unfold new_VariableDeclarator in H.
    apply bind_inv in H as (? & CK & H). pose proof CK as CK0. apply check_kind in CK. apply bind_inv in H as (name & E & H). sort_fact E.
    destruct (try_c_by_n "value" l) as [c|] eqn:Q; [|split_new H; sort_done].
    assert (G : exists a, try_c_by_k "assignment_operator" l = Some a).
    { apply child_k. pose proof Q as Q'. apply near_n in Q. apply find_some in Q' as [_ Q'].
      apply (fi_value root grown (l_node l) (l_node c)); [apply pos_in, P|exact CK|apply kids_child, Q|].
      unfold has_field in Q'. destruct (n_field (l_node c)); [|discriminate]. apply String.eqb_eq in Q'. congruence. }
    destruct G as (a & G). unfold opt_vn_k in H. rewrite G in H. cbn [opt_list] in H. sort_fact Q. sort_fact G. split_new H. sort_done.
  Qed.
  Lemma GenericType_K l x : at_ l -> new_GenericType rec l = Ok x -> KL GenericType l x.
  Proof. intros T H. pose proof (proj1 T) as P. unfold new_GenericType in H. split_new H; sort_done. Qed.
  Lemma IfStatement_K l x : at_ l -> new_IfStatement rec l = Ok x -> KL IfStatement l x.
  Proof. intros T H. pose proof (proj1 T) as P. unfold new_IfStatement in H. split_new H; sort_done. Qed.
  Lemma ParenthesizedExpression_K l x : at_ l -> calm l -> new_ParenthesizedExpression rec l = Ok x -> KL ParenthesizedExpression l x.
  Proof. intros T CA H. pose proof (proj1 T) as P. unfold new_ParenthesizedExpression in H. split_new H; sort_done. Qed.
  Lemma ForInitOption_K l x : at_ l -> new_ForInitOption rec l = Ok x -> KL ForInitOption l x.
  Proof.
    intros T H. unfold new_ForInitOption in H. destruct (is_kind _ l).
    - split_new H; sort_done.
    - apply bind_inv in H as (p & E & H). apply must_inv in E. apply parent_pos in E; [|exact (proj1 T)]. clear T.
      split_new H; sort_done.
  Qed.
  Lemma ForStatement_K l x : at_ l -> new_ForStatement rec l = Ok x -> KL ForStatement l x.
  Proof.
    intros T H. pose proof (proj1 T) as P. unfold new_ForStatement in H.
    apply bind_inv in H as (? & CK & H). pose proof CK as CK0. apply check_kind in CK.
    apply bind_inv in H as (init & E1 & H). apply bind_inv in H as (cond & E2 & H). apply bind_inv in H as (upd & E3 & H).
    apply bind_inv in H as (ps & EP & H). destruct (Nat.ltb _ _) eqn:LT; [discriminate|]. apply Nat.ltb_ge in LT.
    apply bind_inv in H as (bn & E4 & H). apply bind_inv in H as (body & E5 & H).
    assert (SG : Forall (fun p => sign_ok (Some p)) ps).
    { assert (G : forall n, In n (filter (has_kind ";") (children (l_node l))) -> In n (children (l_node l))) by (intros n Hn; apply filter_In in Hn; apply Hn).
      revert G ps EP LT H. generalize (filter (has_kind ";") (children (l_node l))). clear - P quiet_signs. 
      intros ns G ps EP _ _. revert ps EP. induction ns as [|n ns IHn]; intros ps EP; cbn [mapR] in EP; [injection EP as <-; constructor|].
      apply bind_inv in EP as (p & E & EP). apply bind_inv in EP as (ps' & E' & EP). injection EP as <-. constructor.
      - eapply sign_new; [exact P|apply G; left; reflexivity|exact E].
      - apply IHn; [|exact E']. intros m Hm. apply G. right. exact Hm. }
    eapply r_opt_n in E1; [|exact P|reflexivity]. eapply r_opt_n in E2; [|exact P|reflexivity].
    assert (U3 : exists d, upd = [d] /\ KK Expression d).
    { pose proof E3 as E3'. eapply r_opt_n in E3; [|exact P|reflexivity]. destruct E3 as [->|E3]; [|exact E3]. exfalso.
      unfold opt_n in E3'. destruct (try_c_by_n "update" l) as [c|] eqn:Q.
      { apply bind_inv in E3' as (d & _ & E3'). discriminate. }
      destruct (proj1 (whole _ (pos_in _ P)) CK) as (c & Hc & Hf). unfold try_c_by_n in Q.
      destruct (child_kid l c Hc) as (c' & Hc' & <-). apply (find_none _ _ Q) in Hc'. cbv beta in Hc'. unfold has_field in Hc'. rewrite Hf, String.eqb_refl in Hc'. discriminate. }
    destruct U3 as (u & -> & E3'). clear E3.
    sort_fact E4. sort_fact E5.
    assert (HT : forall d1 d2, tight d1 -> tight d2 -> KL ForStatement l (nodeP l ([t "for "; TGroup (surr [d1; d2; TConcat [sp; u]] sepML "(" LMaybe ")")] ++ loop_body bn body))).
    { intros d1 d2 H1 H2. sort_done. }
    assert (HC : forall c, KK Expression c -> tight (TConcat [sp; c])).
    { intros c Hc. eapply K1_concat, KD_cons; [apply K1_run; vm_compute; reflexivity|]. eapply KD_cons; [exact Hc|apply KD_nil]. }
    destruct E1 as [->|(i & -> & E1)], E2 as [->|(c & -> & E2)]; cbn [is_nil] in LT;
      (destruct ps as [|p ps]; [cbn in LT; try lia|]); try (destruct ps as [|p' ps]; [cbn in LT; try lia|]);
      cbn [next_semicolon] in H; injection H as <-; apply HT;
      first [apply K1_punct; repeat match goal with G : Forall _ (_ :: _) |- _ => inversion G; clear G; subst end; assumption|exact (HC _ E2)|exact E1].
  Qed.
  Lemma EnhancedForStatement_K l x : at_ l -> new_EnhancedForStatement rec l = Ok x -> KL EnhancedForStatement l x.
  Proof. intros T H. pose proof (proj1 T) as P. unfold new_EnhancedForStatement in H. split_new H; sort_done. Qed.
  Lemma UpdateExpression_K l x : at_ l -> new_UpdateExpression rec l = Ok x -> KL UpdateExpression l x.
  Proof.
    intros T H. pose proof (proj1 T) as P. unfold new_UpdateExpression in H. split_new H.
    destruct (n_sbyte _ <? n_sbyte _)%N; sort_done.
  Qed.
  Lemma ScopedTypeIdentifier_K l x : at_ l -> new_ScopedTypeIdentifier rec l = Ok x -> KL ScopedTypeIdentifier l x.
  Proof.
    intros T H. pose proof (proj1 T) as P. unfold new_ScopedTypeIdentifier in H. apply bind_inv in H as (? & CK0 & H).
    apply bind_inv in H as (p & E & H). sort_fact E. apply bind_inv in H as (ch & E1 & H).
    assert (C : K1 Any ch Neat) by (split_new E1; (eapply K1_up; [j1|les])).
    apply bind_inv in H as (anns & E4 & H). apply bind_inv in H as (tis & E2 & H). apply bind_inv in H as (ti & E3 & H).
    apply must_inv in E3. apply cs_k_inv in E2 as ->. injection H as <-. sort_fact E4.
    assert (N2 : In ti (try_cs_by_k "type_identifier" l)).
    { apply in_rev. destruct (rev (try_cs_by_k "type_identifier" l)); [discriminate|]. injection E3 as ->. left. reflexivity. }
    assert (T2 : at_ ti) by (eapply at_kid; [exact P|]; apply (near_ks "type_identifier"); exact N2).
    apply filter_In in N2 as [_ N2].
    eapply K1_up; [apply K1_nodeP; [assumption|jcalm|]|les]. eapply KD_cons; [exact C|]. eapply KD_cons; [apply K1_run; vm_compute; reflexivity|].
    eapply KD_app with (m := Any).
    - destruct anns as [|a anns]; cbn [is_nil]; [eapply K_weak; [apply KD_nil|apply le_refl|exact I]|].
      eapply KD_cons; [apply K1_anns; exact E4|]. eapply KD_cons; [apply K1_run; vm_compute; reflexivity|apply KD_nil].
    - eapply KD_cons; [apply K1_value; [exact T2|jneat]|apply KD_nil].
  Qed.
  Lemma ConstructorDeclaration_K l x : at_ l -> calm l -> new_ConstructorDeclaration rec l = Ok x -> KL ConstructorDeclaration l x.
  Proof. intros T CA H. pose proof (proj1 T) as P. unfold new_ConstructorDeclaration in H. split_new H; sort_done. Qed.
  Lemma ConstructorBody_K l x : at_ l -> new_ConstructorBody cm checked rec l = Ok x -> KL ConstructorBody l x.
  Proof.
    intros T H. pose proof (proj1 T) as P. unfold new_ConstructorBody in H.
    assert (PC : forall c, In c (children_vec l) -> at_ c).
    { intros c Hc. apply near_vec in Hc. eapply at_kid; eassumption. }
    apply bind_inv in H as (inv & E1 & H). apply bind_inv in H as (stmts & E2 & H). injection H as <-.
    assert (HS : Forall (fun m => loose (fst m)) stmts).
    { apply (r_members Statement) in E2; [exact E2|split; reflexivity|reflexivity|]. intros c Hc. destruct (children_vec l) as [|c0 cs]; [destruct Hc|].
      destruct (is_kind _ c0); apply PC; [right|]; exact Hc. }
    assert (HI : match inv with Some (d, _) => tight d | None => True end).
    { destruct (children_vec l) as [|c0 cs]; [injection E1 as <-; exact I|].
      destruct (is_kind _ c0) eqn:K; [|injection E1 as <-; exact I].
      apply rmap_inv in E1 as ([d tr] & E1 & ->). unfold body_member in E1. apply bind_inv in E1 as (y & E1 & E3).
      apply bind_inv in E3 as (tr' & _ & E3). injection E3 as <- _. assert (A0 : at_ c0) by (apply PC; left; reflexivity).
      apply (KK_tight ConstructInvocation); [split; reflexivity|]. eapply r_kind; [exact A0|exact K|reflexivity|exact E1]. }
    unfold KL. cbn [entry quit_at]. eapply (K1_braces _ HBracketNoPost (with_punctuation l)); [exact I|].
    destruct inv as [[d tr]|].
    - destruct stmts as [|m stmts]; cbn [is_nil]; [|destruct tr]; cbn [app]; jd.
    - destruct stmts as [|m stmts]; cbn [is_nil app]; jd.
  Qed.
  Lemma ConstructInvocation_K l x : at_ l -> calm l -> new_ConstructInvocation rec l = Ok x -> KL ConstructInvocation l x.
  Proof. intros T CA H. pose proof (proj1 T) as P. unfold new_ConstructInvocation in H. split_new H; sort_done. Qed.
  Lemma TypeParameters_K l x : at_ l -> new_TypeParameters rec l = Ok x -> KL TypeParameters l x.
  Proof. intros T H. pose proof (proj1 T) as P. unfold new_TypeParameters in H. split_new H; sort_done. Qed.
  Lemma TypeParameter_K l x : at_ l -> calm l -> new_TypeParameter rec l = Ok x -> KL TypeParameter l x.
  Proof.
    intros T CA H. pose proof (proj1 T) as P. unfold new_TypeParameter in H. split_new H.
    eapply K1_up; [apply K1_nodeP; [assumption|jcalm|]|les]. eapply KD_app with (m := Any).
    - destruct v as [|a anns]; cbn [is_nil]; [apply KD_nil|].
      eapply KD_cons; [apply K1_anns; exact E|]. eapply KD_cons; [apply K1_run; vm_compute; reflexivity|apply KD_nil].
    - eapply KD_cons; [apply K1_value; [assumption|jneat]|apply KD_nil].
  Qed.
  Lemma ObjectCreationExpression_K l x : at_ l -> new_ObjectCreationExpression rec l = Ok x -> KL ObjectCreationExpression l x.
  Proof. intros T H. pose proof (proj1 T) as P. unfold new_ObjectCreationExpression in H. split_new H; sort_done. Qed.
  Lemma RunAsStatement_K l x : at_ l -> new_RunAsStatement rec l = Ok x -> KL RunAsStatement l x.
  Proof. intros T H. pose proof (proj1 T) as P. unfold new_RunAsStatement in H. split_new H; sort_done. Qed.
  Lemma DoStatement_K l x : at_ l -> new_DoStatement rec l = Ok x -> KL DoStatement l x.
  Proof. intros T H. pose proof (proj1 T) as P. unfold new_DoStatement in H. split_new H; sort_done. Qed.
  Lemma WhileStatement_K l x : at_ l -> new_WhileStatement rec l = Ok x -> KL WhileStatement l x.
  Proof. intros T H. pose proof (proj1 T) as P. unfold new_WhileStatement in H. split_new H; sort_done. Qed.
  Lemma UnaryExpression_K l x : at_ l -> new_UnaryExpression rec l = Ok x -> KL UnaryExpression l x.
  Proof. intros T H. pose proof (proj1 T) as P. unfold new_UnaryExpression in H. split_new H; sort_done. Qed.
  Lemma FieldAccess_K l x : at_ l -> new_FieldAccess rec l = Ok x -> KL FieldAccess l x.
  Proof. intros T H. pose proof (proj1 T) as P. unfold new_FieldAccess in H. split_new H; sort_done. Qed.
  Lemma EnumDeclaration_K l x : at_ l -> calm l -> new_EnumDeclaration rec l = Ok x -> KL EnumDeclaration l x.
  Proof. intros T CA H. pose proof (proj1 T) as P. unfold new_EnumDeclaration in H. split_new H; sort_done. Qed.
  Lemma EnumBody_K l x : at_ l -> new_EnumBody rec l = Ok x -> KL EnumBody l x.
  Proof. intros T H. pose proof (proj1 T) as P. unfold new_EnumBody in H. split_new H; sort_done. Qed.
  Lemma EnumConstant_K l x : at_ l -> calm l -> new_EnumConstant rec l = Ok x -> KL EnumConstant l x.
  Proof. intros T CA H. pose proof (proj1 T) as P. unfold new_EnumConstant in H. split_new H; sort_done. Qed.
  Lemma DmlSecurityMode_K l x : at_ l -> new_DmlSecurityMode l = Ok x -> KL DmlSecurityMode l x.
  Proof. intros T H. pose proof (proj1 T) as P. unfold new_DmlSecurityMode in H. split_new H; sort_done. Qed.
  Lemma DmlType_K l x : at_ l -> new_DmlType l = Ok x -> KL DmlType l x.
  Proof.
    intros T H. pose proof (proj1 T) as P. unfold new_DmlType in H. apply bind_inv in H as (? & CK0 & H).
    apply bind_inv in H as (c & _ & H). destruct (kind_in (kind c) _) eqn:Q; [|discriminate]. injection H as <-.
    unfold KL. cbn [entry quit_at]. eapply K1_up; [apply K1_nodeP; [assumption|jcalm|]|les]. eapply KD_cons; [|apply KD_nil]. eapply K1_concat, KD_cons; [|apply KD_nil].
    unfold kind_in in Q. apply existsb_exists in Q as (k & Hk & Q). apply String.eqb_eq in Q as ->.
    repeat (destruct Hk as [<-|Hk]; [apply K1_const; jtext|]). destruct Hk.
  Qed.
  Lemma DmlExpression_K l x : at_ l -> new_DmlExpression rec l = Ok x -> KL DmlExpression l x.
  Proof. intros T H. pose proof (proj1 T) as P. unfold new_DmlExpression in H. split_new H; sort_done. Qed.
  Lemma ArrayAccess_K l x : at_ l -> new_ArrayAccess rec l = Ok x -> KL ArrayAccess l x.
  Proof. intros T H. pose proof (proj1 T) as P. unfold new_ArrayAccess in H. split_new H; sort_done. Qed.
  Lemma ArrayCreationExpression_K l x : at_ l -> new_ArrayCreationExpression rec l = Ok x -> KL ArrayCreationExpression l x.
  Proof. intros T H. pose proof (proj1 T) as P. unfold new_ArrayCreationExpression in H. split_new H; sort_done. Qed.
  Lemma DimensionsExpr_K l x : at_ l -> new_DimensionsExpr rec l = Ok x -> KL DimensionsExpr l x.
  Proof. intros T H. pose proof (proj1 T) as P. unfold new_DimensionsExpr in H. split_new H; sort_done. Qed.
  Lemma ReturnStatement_K l x : at_ l -> new_ReturnStatement rec l = Ok x -> KL ReturnStatement l x.
  Proof. intros T H. pose proof (proj1 T) as P. unfold new_ReturnStatement in H. split_new H; sort_done. Qed.
  Lemma TernaryExpression_K l x : at_ l -> new_TernaryExpression rec l = Ok x -> KL TernaryExpression l x.
  Proof. intros T H. pose proof (proj1 T) as P. unfold new_TernaryExpression in H. split_new H; sort_done. Qed.
  Lemma TryStatement_K l x : at_ l -> new_TryStatement rec l = Ok x -> KL TryStatement l x.
  Proof. intros T H. pose proof (proj1 T) as P. unfold new_TryStatement in H. split_new H; sort_done. Qed.
  (* a clause that begins with a space *)
  Lemma K_led (w : string) e : e <> Any \/ r_single strict = false -> forallb (fun c => negb (is_ws c)) (U w) = true -> w <> "" ->
    K e [PT (c_sp :: U w ++ [c_sp])] Any.
  Proof.
    intros H W N. apply K_text. unfold post_text. cbn [step1].
    assert (A : apart e (c_sp :: U w ++ [c_sp]) = true).
    { destruct H as [H|H]; [apply apart_ok; left; exact H|]. unfold apart. rewrite H. destruct (U w ++ [c_sp]); [reflexivity|]. rewrite !Bool.orb_true_r. reflexivity. }
    assert (B : bordered (U w)).
    { assert (NU : U w <> []) by (destruct w; [congruence|discriminate]). rewrite forallb_forall in W. split.
      - destruct (U w) as [|c s] eqn:E; [congruence|]. cbn. apply W. left. reflexivity.
      - destruct (exists_last NU) as (p & c & E). rewrite E in *. unfold SeqEdges.last_. rewrite rev_app_distr. cbn. apply W, in_or_app. right. left. reflexivity. }
    assert (F : fit true (c_sp :: U w ++ [c_sp]) = true).
    { destruct B as [B1 B2]. rewrite fit_blank by (destruct (U w); [discriminate B1|exact B1]). rewrite forallb_forall in W.
      assert (X : forall d, is_ws d = true -> ~ In d (U w)) by (intros d Hd Hi; apply W in Hi; rewrite Hd in Hi; discriminate Hi).
      apply fit_app; [apply fit_no_nl|exact B2|reflexivity].
      - apply X. reflexivity.
      - destruct (U w); [discriminate B1|discriminate].
      - intros _. assert (NS : ~ In c_sp (U w)) by (apply X; reflexivity). clear - NS. induction (U w) as [|c s IHs]; [reflexivity|]. cbn [singles].
        destruct (N.eqb_spec c c_sp) as [->|_]; [exfalso; apply NS; left; reflexivity|]. apply IHs. intro Hi. apply NS. right. exact Hi. }
    rewrite F, A. cbn [andb]. assert (R : last_ (c_sp :: U w ++ [c_sp]) = false).
    { change (c_sp :: U w ++ [c_sp]) with ((c_sp :: U w) ++ [c_sp]). rewrite last_app by discriminate. reflexivity. }
    rewrite R. reflexivity.
  Qed.
  Lemma K1_led l (w : string) body : at_ l -> calm l -> announced (l_node l) = true ->
    forallb (fun c => negb (is_ws c)) (U w) = true -> w <> "" -> KD Any body Neat ->
    K1 Neat (nodeP l (TTxt (c_sp :: U w ++ [c_sp]) :: body)) (out l).
  Proof.
    intros A C N W NW H. unfold K1, nodeP, out. cbn [cseq node_cseq flat_map with_punctuation x_id]. rewrite app_nil_r.
    unfold cbody. unfold calm, bk in *. rewrite C. cbn [is_nil].
    assert (SG : K (behind (bkt cm (n_id (l_node l)))) (csign_opt cm (x_punc (with_punctuation l))) (behind (bkt cm (n_id (l_node l))))) by (apply K_opt_sign, sign_from, A).
    pose proof (K_post (bkt cm (n_id (l_node l))) (fine_post _)) as HP.
    assert (D : r_single strict = true \/ r_single strict = false) by (destruct (r_single strict); auto).
    destruct D as [D|D].
    - pose proof (quiet_clauses D _ (in_root l A) N) as Z. unfold bk in Z. unfold cpre, handle_pre_comments. rewrite Z. cbn [flat_map app].
      eapply (K_app Neat [_]); [apply K_led; [left; discriminate|exact W|exact NW]|]. eapply K_app; [exact H|]. eapply K_app; [exact HP|exact SG].
    - eapply K_app; [apply K_pre, fine_pre|]. eapply K_app; [|eapply K_app; [exact HP|exact SG]].
      eapply (K_app Any [_]); [apply K_led; [right; exact D|exact W|exact NW]|exact H].
  Qed.
  Lemma CatchClause_K l x : at_ l -> new_CatchClause rec l = Ok x -> KL CatchClause l x.
  Proof.
    intros T H. pose proof (proj1 T) as P. unfold new_CatchClause in H. split_new H. unfold KL. cbn [entry quit_at].
    match goal with C : assert_check _ _ = Ok _ |- _ => pose proof (check_kind _ _ _ C) as CK end.
    assert (AN : announced (l_node l) = true) by (unfold announced; unfold kind in CK; rewrite CK; reflexivity).
    apply (K1_led l "catch"); [exact T|jcalm|exact AN|reflexivity|discriminate|jd].
  Qed.
  Lemma FinallyClause_K l x : at_ l -> new_FinallyClause rec l = Ok x -> KL FinallyClause l x.
  Proof.
    intros T H. pose proof (proj1 T) as P. unfold new_FinallyClause in H. split_new H. unfold KL. cbn [entry quit_at].
    match goal with C : assert_check _ _ = Ok _ |- _ => pose proof (check_kind _ _ _ C) as CK end.
    assert (AN : announced (l_node l) = true) by (unfold announced; unfold kind in CK; rewrite CK; reflexivity).
    apply (K1_led l "finally"); [exact T|jcalm|exact AN|reflexivity|discriminate|jd].
  Qed.
  Lemma StaticInitializer_K l x : at_ l -> calm l -> new_StaticInitializer rec l = Ok x -> KL StaticInitializer l x.
  Proof. intros T CA H. pose proof (proj1 T) as P. unfold new_StaticInitializer in H. split_new H; sort_done. Qed.
  Lemma InterfaceDeclaration_K l x : at_ l -> new_InterfaceDeclaration rec l = Ok x -> KL InterfaceDeclaration l x.
  Proof. intros T H. pose proof (proj1 T) as P. unfold new_InterfaceDeclaration in H. split_new H; sort_done. Qed.
  Lemma ExtendsInterface_K l x : at_ l -> calm l -> new_ExtendsInterface rec l = Ok x -> KL ExtendsInterface l x.
  Proof.
    intros T CA H. pose proof (proj1 T) as P. unfold new_ExtendsInterface in H. apply bind_inv in H as (tl & E & H). injection H as <-.
    assert (AN : announced (l_node l) = true).
    { unfold by_k in E. apply bind_inv in E as (c & E & _). apply must_inv in E. pose proof (near_k _ _ _ E) as Hc. apply find_some in E as [_ Kc]. apply kids_child in Hc.
      unfold announced. apply Bool.orb_true_iff. right. apply existsb_exists. exists (l_node c). split; [exact Hc|exact Kc]. }
    eapply r_by_k in E; [|exact P|reflexivity].
    assert (G : K1 Neat (nodeP l [_t_ "extends"; tl]) (out l)) by (apply (K1_led l "extends"); [exact T|exact CA|exact AN|reflexivity|discriminate|jd]).
    unfold KL. cbn [entry quit_at]. unfold K1, nodeP in *. cbn [cseq node_cseq flat_map] in *. rewrite !app_nil_r in *. exact G.
  Qed.
  Lemma InterfaceBody_K l x : at_ l -> new_InterfaceBody cm checked rec l = Ok x -> KL InterfaceBody l x.
  Proof. intros T H. pose proof (proj1 T) as P. unfold new_InterfaceBody in H. split_new H; sort_done. Qed.
  Lemma InterfaceMember_K l x : at_ l -> new_InterfaceMember rec l = Ok x -> KL InterfaceMember l x.
  Proof. intros T H. pose proof (proj1 T) as P. unfold new_InterfaceMember in H. split_new H; sort_done. Qed.
  Lemma ConstantDeclaration_K l x : at_ l -> calm l -> new_ConstantDeclaration rec l = Ok x -> KL ConstantDeclaration l x.
  Proof. intros T CA H. pose proof (proj1 T) as P. unfold new_ConstantDeclaration in H. split_new H; sort_done. Qed.
  Lemma AccessorList_K l x : at_ l -> new_AccessorList rec l = Ok x -> KL AccessorList l x.
  Proof.
    intros T H. pose proof (proj1 T) as P. unfold new_AccessorList in H. apply bind_inv in H as (? & CK0 & H). apply bind_inv in H as (ns & E & H).
    assert (N : ns <> []) by (unfold cs_by_k in E; destruct (try_cs_by_k _ l); [discriminate|]; injection E as <-; discriminate).
    apply cs_k_inv in E as ->. apply bind_inv in H as (ds & E & H). injection H as <-.
    apply r_map1 in E; [|exact N|eapply each_k; [exact P|reflexivity]].
    destruct E as (? & ? & -> & E & ?). sort_done.
  Qed.
  Lemma AccessorDeclaration_K l x : at_ l -> new_AccessorDeclaration rec l = Ok x -> KL AccessorDeclaration l x.
  Proof. intros T H. pose proof (proj1 T) as P. unfold new_AccessorDeclaration in H. split_new H; sort_done. Qed.
  Lemma CastExpression_K l x : at_ l -> new_CastExpression rec l = Ok x -> KL CastExpression l x.
  Proof. intros T H. pose proof (proj1 T) as P. unfold new_CastExpression in H. split_new H; sort_done. Qed.
  Lemma ThrowStatement_K l x : at_ l -> new_ThrowStatement rec l = Ok x -> KL ThrowStatement l x.
  Proof. intros T H. pose proof (proj1 T) as P. unfold new_ThrowStatement in H. split_new H; sort_done. Qed.
  Lemma BreakStatement_K l x : at_ l -> new_BreakStatement l = Ok x -> KL BreakStatement l x.
  Proof. intros T H. pose proof (proj1 T) as P. unfold new_BreakStatement in H. split_new H; sort_done. Qed.
  Lemma ContinueStatement_K l x : at_ l -> new_ContinueStatement l = Ok x -> KL ContinueStatement l x.
  Proof. intros T H. pose proof (proj1 T) as P. unfold new_ContinueStatement in H. split_new H; sort_done. Qed.
  Lemma SwitchExpression_K l x : at_ l -> new_SwitchExpression rec l = Ok x -> KL SwitchExpression l x.
  Proof. intros T H. pose proof (proj1 T) as P. unfold new_SwitchExpression in H. split_new H; sort_done. Qed.
  Lemma SwitchBlock_K l x : at_ l -> new_SwitchBlock rec l = Ok x -> KL SwitchBlock l x.
  Proof. intros T H. pose proof (proj1 T) as P. unfold new_SwitchBlock in H. split_new H; sort_done. Qed.
  Lemma SwitchRule_K l x : at_ l -> new_SwitchRule rec l = Ok x -> KL SwitchRule l x.
  Proof. intros T H. pose proof (proj1 T) as P. unfold new_SwitchRule in H. split_new H; sort_done. Qed.
  Lemma SwitchLabel_K l x : at_ l -> new_SwitchLabel rec l = Ok x -> KL SwitchLabel l x.
  Proof.
    intros T H. pose proof (proj1 T) as P. unfold new_SwitchLabel in H. apply bind_inv in H as (? & CK0 & H).
    destruct (is_nil (children_vec l)) eqn:N; [split_new H; sort_done|].
    destruct (try_c_by_k "when_sobject_type" l) eqn:Q; [sort_fact Q; split_new H; sort_done|].
    apply bind_inv in H as (es & E & H). unfold all_c in E. eapply r_map1 in E.
    - destruct E as (? & ? & -> & E & ?). split_new H. sort_done.
    - destruct (children_vec l); [discriminate|discriminate].
    - apply each_c; [exact P|reflexivity].
  Qed.
  Lemma WhenSObjectType_K l x : at_ l -> calm l -> new_WhenSObjectType rec l = Ok x -> KL WhenSObjectType l x.
  Proof.
    intros T0 CA H. pose proof (proj1 T0) as P. unfold new_WhenSObjectType in H. apply bind_inv in H as (tys & E & H).
    apply r_map in E; [|intros c y Hc Hy; apply filter_In in Hc as [Hc _]; eapply each_c; [exact P|reflexivity|exact Hc|exact Hy]].
    apply bind_inv in H as (ty & E1 & H). apply must_inv in E1. apply bind_inv in H as (idn & E2 & H). injection H as <-.
    assert (T : KK UnannotatedType ty).
    { rewrite Forall_forall in E. apply E. apply in_rev. destruct (rev tys); [discriminate|]. injection E1 as ->. left. reflexivity. }
    apply must_inv in E2. assert (G : In idn (filter (is_kind "identifier") (children_vec l))).
    { apply in_rev. destruct (rev (filter _ _)); [discriminate|]. injection E2 as ->. left. reflexivity. }
    apply filter_In in G as [G1 G2]. apply near_vec in G1. eapply at_kid in G1; [|exact P]. sort_done.
  Qed.
  Lemma InstanceOfExpression_K l x : at_ l -> new_InstanceOfExpression rec l = Ok x -> KL InstanceOfExpression l x.
  Proof. intros T H. pose proof (proj1 T) as P. unfold new_InstanceOfExpression in H. split_new H; sort_done. Qed.
  Lemma VersionExpression_K l x : at_ l -> new_VersionExpression l = Ok x -> KL VersionExpression l x.
  Proof. intros T H. pose proof (proj1 T) as P. unfold new_VersionExpression in H. split_new H; sort_done. Qed.
  Lemma JavaFieldAccess_K l x : at_ l -> new_JavaFieldAccess rec l = Ok x -> KL JavaFieldAccess l x.
  Proof. intros T H. pose proof (proj1 T) as P. unfold new_JavaFieldAccess in H. split_new H; sort_done. Qed.
  Lemma JavaType_K l x : at_ l -> calm l -> new_JavaType rec l = Ok x -> KL JavaType l x.
  Proof. intros T CA H. pose proof (proj1 T) as P. unfold new_JavaType in H. split_new H; sort_done. Qed.
  Lemma ArrayType_K l x : at_ l -> new_ArrayType rec l = Ok x -> KL ArrayType l x.
  Proof. intros T H. pose proof (proj1 T) as P. unfold new_ArrayType in H. split_new H; sort_done. Qed.
  Lemma TriggerDeclaration_K l x : at_ l -> new_TriggerDeclaration rec l = Ok x -> KL TriggerDeclaration l x.
  Proof. intros T H. pose proof (proj1 T) as P. unfold new_TriggerDeclaration in H. split_new H; sort_done. Qed.
  Lemma TriggerEvent_K l x : at_ l -> new_TriggerEvent l = Ok x -> KL TriggerEvent l x.
  Proof. intros T H. pose proof (proj1 T) as P. unfold new_TriggerEvent in H. split_new H; sort_done. Qed.
  Lemma TriggerBody_K l x : at_ l -> new_TriggerBody rec l = Ok x -> KL TriggerBody l x.
  Proof. intros T H. pose proof (proj1 T) as P. unfold new_TriggerBody in H. split_new H; sort_done. Qed.
  Lemma QueryExpression_K l x : at_ l -> new_QueryExpression rec l = Ok x -> KL QueryExpression l x.
  Proof. intros T H. pose proof (proj1 T) as P. unfold new_QueryExpression in H. split_new H; sort_done. Qed.
  Lemma SoslQueryBody_K l x : at_ l -> new_SoslQueryBody rec l = Ok x -> KL SoslQueryBody l x.
  Proof. intros T H. pose proof (proj1 T) as P. unfold new_SoslQueryBody in H. split_new H; sort_done. Qed.
  Lemma FindClause_K l x : at_ l -> new_FindClause rec l = Ok x -> KL FindClause l x.
  Proof.
    intros T H. pose proof (proj1 T) as P. unfold new_FindClause in H. split_new H; [sort_done|].
    unfold KL. cbn [entry quit_at]. eapply K1_up; [|apply (le_Neat (out l))]. eapply K1_concat, KD_cons; [apply K1_run; vm_compute; reflexivity|].
    eapply KD_cons; [apply K1_quoted; assumption|apply KD_nil].
  Qed.
  Lemma InClause_K l x : at_ l -> new_InClause l = Ok x -> KL InClause l x.
  Proof. intros T H. pose proof (proj1 T) as P. unfold new_InClause in H. split_new H; sort_done. Qed.
  Lemma ReturningClause_K l x : at_ l -> calm l -> new_ReturningClause rec l = Ok x -> KL ReturningClause l x.
  Proof. intros T CA H. pose proof (proj1 T) as P. unfold new_ReturningClause in H. split_new H; sort_done. Qed.
  Lemma SObjectReturn_K l x : at_ l -> new_SObjectReturn rec l = Ok x -> KL SObjectReturn l x.
  Proof. intros T H. pose proof (proj1 T) as P. unfold new_SObjectReturn in H. split_new H; sort_done. Qed.
  Lemma SoqlQueryBody_K l x : at_ l -> new_SoqlQueryBody rec l = Ok x -> KL SoqlQueryBody l x.
  Proof. intros T H. pose proof (proj1 T) as P. unfold new_SoqlQueryBody in H. split_new H; sort_done. Qed.
  Lemma FromClause_K l x : at_ l -> new_FromClause rec l = Ok x -> KL FromClause l x.
  Proof. intros T H. pose proof (proj1 T) as P. unfold new_FromClause in H. split_new H; sort_done. Qed.
  Lemma StorageAlias_K l x : at_ l -> new_StorageAlias rec l = Ok x -> KL StorageAlias l x.
  Proof. intros T H. pose proof (proj1 T) as P. unfold new_StorageAlias in H. split_new H; sort_done. Qed.
  Lemma LimitClause_K l x : at_ l -> new_LimitClause rec l = Ok x -> KL LimitClause l x.
  Proof. intros T H. pose proof (proj1 T) as P. unfold new_LimitClause in H. split_new H; sort_done. Qed.
  Lemma UpdateClause_K l x : at_ l -> calm l -> new_UpdateClause l = Ok x -> KL UpdateClause l x.
  Proof. intros T CA H. pose proof (proj1 T) as P. unfold new_UpdateClause in H. split_new H; sort_done. Qed.
  Lemma BoundApexExpression_K l x : at_ l -> new_BoundApexExpression rec l = Ok x -> KL BoundApexExpression l x.
  Proof. intros T H. pose proof (proj1 T) as P. unfold new_BoundApexExpression in H. split_new H; sort_done. Qed.
  Lemma SoslUsingClause_K l x : at_ l -> new_SoslUsingClause l = Ok x -> KL SoslUsingClause l x.
  Proof. intros T H. pose proof (proj1 T) as P. unfold new_SoslUsingClause in H. split_new H; sort_done. Qed.
  Lemma UsingClause_K l x : at_ l -> new_UsingClause rec l = Ok x -> KL UsingClause l x.
  Proof. intros T H. pose proof (proj1 T) as P. unfold new_UsingClause in H. split_new H; sort_done. Qed.
  Lemma UsingScopeClause_K l x : at_ l -> new_UsingScopeClause l = Ok x -> KL UsingScopeClause l x.
  Proof. intros T H. pose proof (proj1 T) as P. unfold new_UsingScopeClause in H. split_new H; sort_done. Qed.
  Lemma UsingLookupClause_K l x : at_ l -> new_UsingLookupClause rec l = Ok x -> KL UsingLookupClause l x.
  Proof.
    intros T H. pose proof (proj1 T) as P. unfold new_UsingLookupClause in H.
    apply bind_inv in H as (? & CK & H). pose proof CK as CK0. apply check_kind in CK. apply bind_inv in H as (f & E & H). sort_fact E.
    destruct (child_k l "using_lookup_bind_clause" (proj2 (whole _ (pos_in _ P)) CK)) as (c & Q).
    apply bind_inv in H as (bd & E1 & H). unfold opt_k in E1. rewrite Q in E1. sort_fact Q. split_new E1. split_new H. sort_done.
  Qed.
  Lemma UsingListviewClause_K l x : at_ l -> new_UsingListviewClause l = Ok x -> KL UsingListviewClause l x.
  Proof. intros T H. pose proof (proj1 T) as P. unfold new_UsingListviewClause in H. split_new H; sort_done. Qed.
  Lemma UsingLookupBindClause_K l x : at_ l -> new_UsingLookupBindClause rec l = Ok x -> KL UsingLookupBindClause l x.
  Proof.
    intros T H. pose proof (proj1 T) as P. unfold new_UsingLookupBindClause in H.
    apply bind_inv in H as (? & CK & H). pose proof CK as CK0. apply check_kind in CK. apply bind_inv in H as (es & E & H).
    pose proof E as E'. eapply r_all_k in E; [|exact P|reflexivity].
    destruct (child_k l "using_lookup_bind_expression") as (c & Q); [exact (fi_binds root grown _ (pos_in _ P) CK)|].
    destruct es as [|e es].
    - exfalso. unfold all_k in E'. unfold try_c_by_k in Q. apply find_some in Q as [Q1 Q2].
      assert (G : In c (try_cs_by_k "using_lookup_bind_expression" l)) by (apply filter_In; split; assumption).
      destruct (try_cs_by_k _ l) as [|y ys]; [destruct G|]. cbn [mapR] in E'. apply bind_inv in E' as (? & _ & E'). apply bind_inv in E' as (? & _ & E'). discriminate.
    - split_new H. sort_done.
  Qed.
  Lemma UsingLookupBindExpression_K l x : at_ l -> new_UsingLookupBindExpression rec l = Ok x -> KL UsingLookupBindExpression l x.
  Proof. intros T H. pose proof (proj1 T) as P. unfold new_UsingLookupBindExpression in H. split_new H; sort_done. Qed.
  Lemma WhereClause_K l x : at_ l -> new_WhereClause rec l = Ok x -> KL WhereClause l x.
  Proof. intros T H. pose proof (proj1 T) as P. unfold new_WhereClause in H. split_new H; sort_done. Qed.
  Lemma HavingClause_K l x : at_ l -> new_HavingClause rec l = Ok x -> KL HavingClause l x.
  Proof. intros T H. pose proof (proj1 T) as P. unfold new_HavingClause in H. split_new H; sort_done. Qed.
  Lemma ComparisonExpression_K l x : at_ l -> new_ComparisonExpression rec l = Ok x -> KL ComparisonExpression l x.
  Proof. intros T H. pose proof (proj1 T) as P. unfold new_ComparisonExpression in H. split_new H; sort_done. Qed.
  Lemma ComparableList_K l x : at_ l -> calm l -> new_ComparableList rec l = Ok x -> KL ComparableList l x.
  Proof. intros T CA H. pose proof (proj1 T) as P. unfold new_ComparableList in H. split_new H; sort_done. Qed.
  Lemma OrderByClause_K l x : at_ l -> new_OrderByClause rec l = Ok x -> KL OrderByClause l x.
  Proof. intros T H. pose proof (proj1 T) as P. unfold new_OrderByClause in H. split_new H; sort_done. Qed.
  Lemma OrderExpression_K l x : at_ l -> new_OrderExpression rec l = Ok x -> KL OrderExpression l x.
  Proof. intros T H. pose proof (proj1 T) as P. unfold new_OrderExpression in H. split_new H; sort_done. Qed.
  Lemma SubQuery_K l x : at_ l -> calm l -> new_SubQuery rec l = Ok x -> KL SubQuery l x.
  Proof. intros T CA H. pose proof (proj1 T) as P. unfold new_SubQuery in H. split_new H; sort_done. Qed.
  Lemma MapCreationExpression_K l x : at_ l -> new_MapCreationExpression rec l = Ok x -> KL MapCreationExpression l x.
  Proof. intros T H. pose proof (proj1 T) as P. unfold new_MapCreationExpression in H. split_new H; sort_done. Qed.
  Lemma MapInitializer_K l x : at_ l -> new_MapInitializer rec l = Ok x -> KL MapInitializer l x.
  Proof. intros T H. pose proof (proj1 T) as P. unfold new_MapInitializer in H. split_new H; sort_done. Qed.
  Lemma MapKeyInitializer_K l x : at_ l -> new_MapKeyInitializer rec l = Ok x -> KL MapKeyInitializer l x.
  Proof.
    intros T H. pose proof (proj1 T) as P. unfold new_MapKeyInitializer in H. apply bind_inv in H as (? & CK0 & H).
    assert (PC : forall c, In c (children_vec l) -> at_ c).
    { intros c Hc. apply near_vec in Hc. eapply at_kid; eassumption. }
    destruct (children_vec l) as [|a [|b [|]]]; try discriminate.
    pose proof (PC a (or_introl eq_refl)) as PA. pose proof (PC b (or_intror (or_introl eq_refl))) as PB.
    apply bind_inv in H as (y & E1 & H). apply bind_inv in H as (z & E2 & H). injection H as <-.
    eapply r_free in E1; [|exact PA|reflexivity]. eapply r_free in E2; [|exact PB|reflexivity]. sort_done.
  Qed.
  Lemma GroupByClause_K l x : at_ l -> new_GroupByClause rec l = Ok x -> KL GroupByClause l x.
  Proof.
    intros T H. pose proof (proj1 T) as P. unfold new_GroupByClause in H. apply bind_inv in H as (? & CK & H). pose proof CK as CK0. apply check_kind in CK. apply bind_inv in H as (items & E & H).
    injection H as <-.
    assert (HI : Forall (fun i : dt + dt => tight match i with inl d | inr d => d end) items).
    { assert (PC : forall c, In c (children_vec l) -> at_ c).
      { intros c Hc. apply near_vec in Hc. eapply at_kid; eassumption. }
      revert items E. induction (children_vec l) as [|c cs IHc]; intros items E; cbn [mapR] in E.
      - injection E as <-. constructor.
      - apply bind_inv in E as (d & E & E2). apply bind_inv in E2 as (ds & E2 & E3). injection E3 as <-. constructor.
        + pose proof (PC c (or_introl eq_refl)) as Pc. unfold group_by_item in E.
          destruct (is_kind "field_identifier" c).
          { apply bind_inv in E as (d' & E & H). injection H as <-. eapply r_free in E; [|exact Pc|reflexivity].
            apply K1_concat. eapply KD_cons; [exact E|apply KD_nil]. }
          destruct (is_kind "function_expression" c).
          { apply bind_inv in E as (d' & E & H). injection H as <-. eapply r_free in E; [|exact Pc|reflexivity].
            apply K1_concat. eapply KD_cons; [exact E|apply KD_nil]. }
          destruct (is_kind "having_clause" c); [|discriminate].
          apply bind_inv in E as (d' & E & H). injection H as <-. eapply r_free in E; [|exact Pc|reflexivity].
          exact E.
        + apply IHc; [|exact E2]. intros y Hy. apply PC. right. exact Hy. }
    assert (HL : Forall tight (lefts items)).
    { apply Forall_flat_map. eapply Forall_impl; [|exact HI]. intros [d|d] Hd; [constructor; [exact Hd|constructor]|constructor]. }
    assert (HR : Forall tight (rights items)).
    { apply Forall_flat_map. eapply Forall_impl; [|exact HI]. intros [d|d] Hd; [constructor|constructor; [exact Hd|constructor]]. }
    assert (NL : lefts items <> []).
    { destruct (fi_group root grown _ (pos_in _ P) CK) as (c & Hc & N & X & Kc).
      destruct (child_kid l c Hc) as (c' & Hc' & <-). assert (G : In c' (children_vec l)).
      { unfold children_vec, named_kids. apply filter_In. split; [apply filter_In; split; [exact Hc'|exact N]|]. unfold is_extra. rewrite X. reflexivity. }
      clear - E G Kc. revert items E. induction (children_vec l) as [|y ys IHy]; [destruct G|]. intros items E. cbn [mapR] in E.
      apply bind_inv in E as (d & E & E2). apply bind_inv in E2 as (ds & E2 & E3). injection E3 as <-. cbn [lefts flat_map].
      destruct G as [->|G].
      - unfold group_by_item in E. destruct (is_kind "field_identifier" c').
        { apply bind_inv in E as (d' & _ & H). injection H as <-. discriminate. }
        destruct (is_kind "function_expression" c').
        { apply bind_inv in E as (d' & _ & H). injection H as <-. discriminate. }
        destruct (is_kind "having_clause" c') eqn:Q; [|discriminate]. apply String.eqb_eq in Q. contradiction.
      - specialize (IHy G ds E2). destruct d; [discriminate|]. exact IHy. }
    eapply K1_up; [apply K1_nodeP; [assumption|jcalm|]|les]. eapply KD_cons; [apply K1_run; vm_compute; reflexivity|].
    eapply KD_cons with (m := Neat).
    { destruct (lefts items) as [|y ys]; [contradiction|]. eapply K1_inter1; [jfair|exact HL]. }
    cbn [app]. destruct (rev (rights items)) as [|h r] eqn:R; [apply KD_nil|].
    eapply KD_cons; [apply K1_run; vm_compute; reflexivity|]. eapply KD_cons; [|apply KD_nil]. rewrite Forall_forall in HR. apply HR.
    apply in_rev. rewrite R. left. reflexivity.
  Qed.
  Lemma SoslWithClause_K l x : at_ l -> new_SoslWithClause rec l = Ok x -> KL SoslWithClause l x.
  Proof. intros T H. pose proof (proj1 T) as P. unfold new_SoslWithClause in H. split_new H; sort_done. Qed.
  Lemma SoqlWithClause_K l x : at_ l -> new_SoqlWithClause rec l = Ok x -> KL SoqlWithClause l x.
  Proof. intros T H. pose proof (proj1 T) as P. unfold new_SoqlWithClause in H. split_new H; sort_done. Qed.
  Lemma SoqlWithType_K l x : at_ l -> new_SoqlWithType l = Ok x -> KL SoqlWithType l x.
  Proof.
    intros T H. pose proof (proj1 T) as P. unfold new_SoqlWithType in H.
    apply bind_inv in H as (? & CK & H). pose proof CK as CK0. apply check_kind in CK.
    destruct (is_nil (named_kids l)) eqn:Q; [|split_new H; sort_done].
    assert (N : neat l).
    { apply told_self; [exact T|]. unfold told_alone. unfold kind in CK. rewrite CK.
      assert (E : filter n_named (children (l_node l)) = []).
      { unfold named_kids, kids in Q. rewrite <- (TokensProofs2.locs_nodes l (children (l_node l)) []) at 1.
        assert (G : forall xs, is_nil (filter is_named xs) = true -> filter n_named (map l_node xs) = []).
        { clear. induction xs as [|y ys IHx]; [reflexivity|]. cbn [filter map]. unfold is_named at 1. destruct (n_named (l_node y)); [discriminate|exact IHx]. }
        apply G, Q. }
      rewrite E. reflexivity. }
    split_new H. sort_done.
  Qed.
  Lemma SoslWithType_K l x : at_ l -> new_SoslWithType rec l = Ok x -> KL SoslWithType l x.
  Proof. intros T H. pose proof (proj1 T) as P. unfold new_SoslWithType in H. split_new H; sort_done. Qed.
  Lemma WithDataCatExpression_K l x : at_ l -> new_WithDataCatExpression rec l = Ok x -> KL WithDataCatExpression l x.
  Proof. intros T H. pose proof (proj1 T) as P. unfold new_WithDataCatExpression in H. split_new H; sort_done. Qed.
  Lemma WithDataCatFilter_K l x : at_ l -> new_WithDataCatFilter l = Ok x -> KL WithDataCatFilter l x.
  Proof.
    intros T H. pose proof (proj1 T) as P. unfold new_WithDataCatFilter in H. apply bind_inv in H as (? & CK0 & H). apply bind_inv in H as (ids & E & H).
    eapply r_cs in E; [|exact P|reflexivity]. destruct E as (a & us & -> & Ha & Hus).
    destruct us as [|b r]; try discriminate. apply bind_inv in H as (ft & E & H). apply rmap_inv in E as (c & E & ->). sort_fact E.
    injection H as <-. inversion Hus; subst. destruct r as [|d r]; unfold KL; cbn [entry quit_at map]; (eapply K1_up; [j1|les]).
  Qed.
  Lemma WithDivisionExpression_K l x : at_ l -> new_WithDivisionExpression rec l = Ok x -> KL WithDivisionExpression l x.
  Proof. intros T H. pose proof (proj1 T) as P. unfold new_WithDivisionExpression in H. split_new H; sort_done. Qed.
  Lemma WithSnippetExpression_K l x : at_ l -> new_WithSnippetExpression l = Ok x -> KL WithSnippetExpression l x.
  Proof. intros T H. pose proof (proj1 T) as P. unfold new_WithSnippetExpression in H. split_new H; sort_done. Qed.
  Lemma WithNetworkExpression_K l x : at_ l -> new_WithNetworkExpression rec l = Ok x -> KL WithNetworkExpression l x.
  Proof. intros T H. pose proof (proj1 T) as P. unfold new_WithNetworkExpression in H. split_new H; sort_done. Qed.
  Lemma WithMetadataExpression_K l x : at_ l -> new_WithMetadataExpression l = Ok x -> KL WithMetadataExpression l x.
  Proof. intros T H. pose proof (proj1 T) as P. unfold new_WithMetadataExpression in H. split_new H; sort_done. Qed.
  Lemma WithSpellCorrectionExpression_K l x : at_ l -> new_WithSpellCorrectionExpression l = Ok x -> KL WithSpellCorrectionExpression l x.
  Proof. intros T H. pose proof (proj1 T) as P. unfold new_WithSpellCorrectionExpression in H. split_new H; sort_done. Qed.
  Lemma WithPriceBookExpression_K l x : at_ l -> new_WithPriceBookExpression l = Ok x -> KL WithPriceBookExpression l x.
  Proof. intros T H. pose proof (proj1 T) as P. unfold new_WithPriceBookExpression in H. split_new H; sort_done. Qed.
  Lemma DottedIdentifier_K l x : at_ l -> new_DottedIdentifier l = Ok x -> KL DottedIdentifier l x.
  Proof. intros T H. pose proof (proj1 T) as P. unfold new_DottedIdentifier in H. split_new H; sort_done. Qed.
  Lemma ExpressionStatement_K l x : at_ l -> new_ExpressionStatement rec l = Ok x -> KL ExpressionStatement l x.
  Proof. intros T H. pose proof (proj1 T) as P. unfold new_ExpressionStatement in H. split_new H; sort_done. Qed.
  Lemma CountExpression_K l x : at_ l -> new_CountExpression l = Ok x -> KL CountExpression l x.
  Proof. intros T H. pose proof (proj1 T) as P. unfold new_CountExpression in H. split_new H; sort_done. Qed.
  Lemma FunctionExpression_K l x : at_ l -> new_FunctionExpression rec l = Ok x -> KL FunctionExpression l x.
  Proof.
    intros T H. pose proof (proj1 T) as P. unfold new_FunctionExpression in H. apply bind_inv in H as (? & CK0 & H).
    apply bind_inv in H as (f & E & H). sort_fact E. apply bind_inv in H as (v & E0 & H).
    injection H as <-. destruct (try_c_by_k "geo_location_type" l).
    - split_new E0; sort_done.
    - apply bind_inv in E0 as (vs & E1 & H). injection H as <-.
      apply r_map in E1; [|intros y z Hy Hz; assert (In y (children_vec l)) by (destruct (children_vec l); [destruct Hy|right; exact Hy]);
        eapply each_c; [exact P|reflexivity|eassumption|exact Hz]].
      sort_done.
  Qed.
  Lemma FieldIdentifier_K l x : at_ l -> new_FieldIdentifier rec l = Ok x -> KL FieldIdentifier l x.
  Proof. intros T H. pose proof (proj1 T) as P. unfold new_FieldIdentifier in H. split_new H; sort_done. Qed.
  Lemma GeoLocationType_K l x : at_ l -> new_GeoLocationType rec l = Ok x -> KL GeoLocationType l x.
  Proof.
    intros T H. pose proof (proj1 T) as P. unfold new_GeoLocationType in H. apply bind_inv in H as (? & CK0 & H). apply bind_inv in H as (c & Ec & H).
    apply bind_inv in H as (v & E & H). injection H as <-. sort_fact Ec.
    destruct (is_kind "field_identifier" c); [split_new E; sort_done|].
    destruct (is_kind "bound_apex_expression" c); [split_new E; sort_done|].
    destruct (is_kind "identifier" c) eqn:Q; [|discriminate]. apply bind_inv in E as (ds & E2 & E).
    eapply r_cs in E2; [|exact P|reflexivity]. destruct E2 as (d1 & us & -> & H1 & Hus).
    destruct us as [|d2 [|]]; try discriminate. injection E as <-. inversion Hus; subst. sort_done.
  Qed.
  Lemma SelectClause_K l x : at_ l -> new_SelectClause rec l = Ok x -> KL SelectClause l x.
  Proof. intros T H. pose proof (proj1 T) as P. unfold new_SelectClause in H. split_new H; sort_done. Qed.
  Lemma StorageIdentifier_K l x : at_ l -> new_StorageIdentifier l = Ok x -> KL StorageIdentifier l x.
  Proof. intros T H. pose proof (proj1 T) as P. unfold new_StorageIdentifier in H. split_new H; sort_done. Qed.
  Lemma AndExpression_K l x : at_ l -> new_AndExpression rec l = Ok x -> KL AndExpression l x.
  Proof. intros T H. pose proof (proj1 T) as P. unfold new_AndExpression in H. split_new H; sort_done. Qed.
  Lemma OrExpression_K l x : at_ l -> new_OrExpression rec l = Ok x -> KL OrExpression l x.
  Proof. intros T H. pose proof (proj1 T) as P. unfold new_OrExpression in H. split_new H; sort_done. Qed.
  Lemma NotExpression_K l x : at_ l -> new_NotExpression rec l = Ok x -> KL NotExpression l x.
  Proof. intros T H. pose proof (proj1 T) as P. unfold new_NotExpression in H. split_new H; sort_done. Qed.
  Lemma ForClause_K l x : at_ l -> new_ForClause l = Ok x -> KL ForClause l x.
  Proof. intros T H. pose proof (proj1 T) as P. unfold new_ForClause in H. split_new H; sort_done. Qed.
  Lemma RootMember_K l x : at_ l -> new_RootMember rec l = Ok x -> KL RootMember l x.
  Proof. intros T H. pose proof (proj1 T) as P. unfold new_RootMember in H. split_new H; sort_done. Qed.
  Lemma ClassMember_K l x : at_ l -> new_ClassMember rec l = Ok x -> KL ClassMember l x.
  Proof. intros T H. pose proof (proj1 T) as P. unfold new_ClassMember in H. split_new H; sort_done. Qed.
  Lemma UnannotatedType_K l x : at_ l -> new_UnannotatedType rec l = Ok x -> KL UnannotatedType l x.
  Proof. intros T H. pose proof (proj1 T) as P. unfold new_UnannotatedType in H. split_new H; sort_done. Qed.
  Lemma SimpleType_K l x : at_ l -> new_SimpleType rec l = Ok x -> KL SimpleType l x.
  Proof. intros T H. pose proof (proj1 T) as P. unfold new_SimpleType in H. split_new H; sort_done. Qed.
  Lemma VariableInitializer_K l x : at_ l -> new_VariableInitializer rec l = Ok x -> KL VariableInitializer l x.
  Proof. intros T H. pose proof (proj1 T) as P. unfold new_VariableInitializer in H. split_new H; sort_done. Qed.
  Lemma Expression_K l x : at_ l -> new_Expression rec l = Ok x -> KL Expression l x.
  Proof. intros T H. pose proof (proj1 T) as P. unfold new_Expression in H. split_new H; sort_done. Qed.
  Lemma PrimaryExpression_K l x : at_ l -> new_PrimaryExpression rec l = Ok x -> KL PrimaryExpression l x.
  Proof. intros T H. pose proof (proj1 T) as P. unfold new_PrimaryExpression in H. split_new H; sort_done. Qed.
  Lemma ClassLiteral_K l x : at_ l -> new_ClassLiteral rec l = Ok x -> KL ClassLiteral l x.
  Proof. intros T H. pose proof (proj1 T) as P. unfold new_ClassLiteral in H. split_new H; sort_done. Qed.
  Lemma Statement_K l x : at_ l -> new_Statement rec l = Ok x -> KL Statement l x.
  Proof. intros T H. pose proof (proj1 T) as P. unfold new_Statement in H. split_new H; sort_done. Qed.
  Lemma Type__K l x : at_ l -> new_Type rec l = Ok x -> KL Type_ l x.
  Proof. intros T H. pose proof (proj1 T) as P. unfold new_Type in H. split_new H; sort_done. Qed.
  Lemma ValueExpression_K l x : at_ l -> new_ValueExpression rec l = Ok x -> KL ValueExpression l x.
  Proof. intros T H. pose proof (proj1 T) as P. unfold new_ValueExpression in H. split_new H; sort_done. Qed.
  Lemma SelectableExpression_K l x : at_ l -> new_SelectableExpression rec l = Ok x -> KL SelectableExpression l x.
  Proof. intros T H. pose proof (proj1 T) as P. unfold new_SelectableExpression in H. split_new H; sort_done. Qed.
  Lemma FieldsExpression_K l x : at_ l -> new_FieldsExpression l = Ok x -> KL FieldsExpression l x.
  Proof. intros T H. pose proof (proj1 T) as P. unfold new_FieldsExpression in H. split_new H; sort_done. Qed.
  Lemma AliasExpression_K l x : at_ l -> new_AliasExpression rec l = Ok x -> KL AliasExpression l x.
  Proof. intros T H. pose proof (proj1 T) as P. unfold new_AliasExpression in H. split_new H; sort_done. Qed.
  Lemma StorageVariant_K l x : at_ l -> new_StorageVariant rec l = Ok x -> KL StorageVariant l x.
  Proof. intros T H. pose proof (proj1 T) as P. unfold new_StorageVariant in H. split_new H; sort_done. Qed.
  Lemma LimitValue_K l x : at_ l -> new_LimitValue rec l = Ok x -> KL LimitValue l x.
  Proof. intros T H. pose proof (proj1 T) as P. unfold new_LimitValue in H. split_new H; sort_done. Qed.
  Lemma SoqlLiteral_K l x : at_ l -> new_SoqlLiteral l = Ok x -> KL SoqlLiteral l x.
  Proof.
    intros T H. pose proof (proj1 T) as P. unfold new_SoqlLiteral in H. split_new H; [sort_done|].
    unfold KL. cbn [entry quit_at]. eapply K1_up; [|apply (le_Neat (out l))]. eapply K1_concat, KD_cons; [|apply KD_nil]. eapply K1_still; [assumption|jstill|]. eapply KD_cons; [|apply KD_nil]. apply K1_dated; assumption.
  Qed.
  Lemma SetValue_K l x : at_ l -> new_SetValue rec l = Ok x -> KL SetValue l x.
  Proof. intros T H. pose proof (proj1 T) as P. unfold new_SetValue in H. split_new H; sort_done. Qed.
  Lemma ComparableListValue_K l x : at_ l -> new_ComparableListValue rec l = Ok x -> KL ComparableListValue l x.
  Proof. intros T H. pose proof (proj1 T) as P. unfold new_ComparableListValue in H. split_new H; sort_done. Qed.
  Lemma OffsetClause_K l x : at_ l -> new_OffsetClause rec l = Ok x -> KL OffsetClause l x.
  Proof. intros T H. pose proof (proj1 T) as P. unfold new_OffsetClause in H. split_new H; sort_done. Qed.
  Lemma BooleanExpression_K p l x : at_ l -> new_BooleanExpression rec p l = Ok x -> KL (BooleanExpression p) l x.
  Proof. intros T H. pose proof (proj1 T) as P. unfold new_BooleanExpression in H. split_new H; sort_done. Qed.
  Lemma ConditionExpression_K p l x : at_ l -> new_ConditionExpression rec p l = Ok x -> KL (ConditionExpression p) l x.
  Proof.
    intros T H. pose proof (proj1 T) as P. unfold new_ConditionExpression in H. destruct (is_kind _ l).
    - eapply r_rec in H; [|exact T|jcalms]. exact H.
    - apply bind_inv in H as (d & E & H). eapply r_rec in E; [|exact T|jcalms].
      destruct (should_parenthesize _ _); injection H as <-; [|exact E].
      unfold KL; cbn [entry quit_at]; (eapply K1_up; [j1|les]).
  Qed.

  Theorem step_trim s l x : at_ l -> (blind s = true -> calm l) -> new_step cm checked rec s l = Ok x -> KL s l x.
  Proof.
    intros T B H. destruct s; cbn [new_step] in H.
    all: try (exact (Root_K l x T H)).
    all: try (exact (ClassDeclaration_K l x T H)).
    all: try (exact (MethodDeclaration_K l x T H)).
    all: try (exact (FormalParameters_K l x T H)).
    all: try (exact (FormalParameter_K l x T H)).
    all: try (exact (SuperClass_K l x T H)).
    all: try (exact (Modifiers_K l x T H)).
    all: try (exact (Modifier_K l x T H)).
    all: try (exact (Annotation_K l x T H)).
    all: try (exact (AnnotationArgumentList_K l x T H)).
    all: try (exact (AnnotationKeyValue_K l x T H)).
    all: try (exact (ClassBody_K l x T H)).
    all: try (exact (FieldDeclaration_K l x T H)).
    all: try (exact (ArrayInitializer_K l x T H)).
    all: try (exact (AssignmentExpression_K l x T H)).
    all: try (exact (AssignmentLeft_K l x T H)).
    all: try (exact (Block_K l x T H)).
    all: try (exact (Interface__K l x T H)).
    all: try (exact (TypeList_K l x T H)).
    all: try (exact (ObjectExpression_K l x T H)).
    all: try (exact (MethodInvocation_K l x T H)).
    all: try (exact (TypeArguments_K l x T (B eq_refl) H)).
    all: try (exact (ArgumentList_K l x T (B eq_refl) H)).
    all: try (exact (BinaryExpression_K l x T H)).
    all: try (exact (LocalVariableDeclaration_K l x T H)).
    all: try (exact (VariableDeclarator_K l x T H)).
    all: try (exact (GenericType_K l x T H)).
    all: try (exact (IfStatement_K l x T H)).
    all: try (exact (ParenthesizedExpression_K l x T (B eq_refl) H)).
    all: try (exact (ForInitOption_K l x T H)).
    all: try (exact (ForStatement_K l x T H)).
    all: try (exact (EnhancedForStatement_K l x T H)).
    all: try (exact (UpdateExpression_K l x T H)).
    all: try (exact (ScopedTypeIdentifier_K l x T H)).
    all: try (exact (ConstructorDeclaration_K l x T (B eq_refl) H)).
    all: try (exact (ConstructorBody_K l x T H)).
    all: try (exact (ConstructInvocation_K l x T (B eq_refl) H)).
    all: try (exact (TypeParameters_K l x T H)).
    all: try (exact (TypeParameter_K l x T (B eq_refl) H)).
    all: try (exact (ObjectCreationExpression_K l x T H)).
    all: try (exact (RunAsStatement_K l x T H)).
    all: try (exact (DoStatement_K l x T H)).
    all: try (exact (WhileStatement_K l x T H)).
    all: try (exact (UnaryExpression_K l x T H)).
    all: try (exact (FieldAccess_K l x T H)).
    all: try (exact (EnumDeclaration_K l x T (B eq_refl) H)).
    all: try (exact (EnumBody_K l x T H)).
    all: try (exact (EnumConstant_K l x T (B eq_refl) H)).
    all: try (exact (DmlSecurityMode_K l x T H)).
    all: try (exact (DmlType_K l x T H)).
    all: try (exact (DmlExpression_K l x T H)).
    all: try (exact (ArrayAccess_K l x T H)).
    all: try (exact (ArrayCreationExpression_K l x T H)).
    all: try (exact (DimensionsExpr_K l x T H)).
    all: try (exact (ReturnStatement_K l x T H)).
    all: try (exact (TernaryExpression_K l x T H)).
    all: try (exact (TryStatement_K l x T H)).
    all: try (exact (CatchClause_K l x T H)).
    all: try (exact (FinallyClause_K l x T H)).
    all: try (exact (StaticInitializer_K l x T (B eq_refl) H)).
    all: try (exact (InterfaceDeclaration_K l x T H)).
    all: try (exact (ExtendsInterface_K l x T (B eq_refl) H)).
    all: try (exact (InterfaceBody_K l x T H)).
    all: try (exact (InterfaceMember_K l x T H)).
    all: try (exact (ConstantDeclaration_K l x T (B eq_refl) H)).
    all: try (exact (AccessorList_K l x T H)).
    all: try (exact (AccessorDeclaration_K l x T H)).
    all: try (exact (CastExpression_K l x T H)).
    all: try (exact (ThrowStatement_K l x T H)).
    all: try (exact (BreakStatement_K l x T H)).
    all: try (exact (ContinueStatement_K l x T H)).
    all: try (exact (SwitchExpression_K l x T H)).
    all: try (exact (SwitchBlock_K l x T H)).
    all: try (exact (SwitchRule_K l x T H)).
    all: try (exact (SwitchLabel_K l x T H)).
    all: try (exact (WhenSObjectType_K l x T (B eq_refl) H)).
    all: try (exact (InstanceOfExpression_K l x T H)).
    all: try (exact (VersionExpression_K l x T H)).
    all: try (exact (JavaFieldAccess_K l x T H)).
    all: try (exact (JavaType_K l x T (B eq_refl) H)).
    all: try (exact (ArrayType_K l x T H)).
    all: try (exact (TriggerDeclaration_K l x T H)).
    all: try (exact (TriggerEvent_K l x T H)).
    all: try (exact (TriggerBody_K l x T H)).
    all: try (exact (QueryExpression_K l x T H)).
    all: try (exact (SoslQueryBody_K l x T H)).
    all: try (exact (FindClause_K l x T H)).
    all: try (exact (InClause_K l x T H)).
    all: try (exact (ReturningClause_K l x T (B eq_refl) H)).
    all: try (exact (SObjectReturn_K l x T H)).
    all: try (exact (SoqlQueryBody_K l x T H)).
    all: try (exact (FromClause_K l x T H)).
    all: try (exact (StorageAlias_K l x T H)).
    all: try (exact (LimitClause_K l x T H)).
    all: try (exact (UpdateClause_K l x T (B eq_refl) H)).
    all: try (exact (BoundApexExpression_K l x T H)).
    all: try (exact (SoslUsingClause_K l x T H)).
    all: try (exact (UsingClause_K l x T H)).
    all: try (exact (UsingScopeClause_K l x T H)).
    all: try (exact (UsingLookupClause_K l x T H)).
    all: try (exact (UsingListviewClause_K l x T H)).
    all: try (exact (UsingLookupBindClause_K l x T H)).
    all: try (exact (UsingLookupBindExpression_K l x T H)).
    all: try (exact (WhereClause_K l x T H)).
    all: try (exact (HavingClause_K l x T H)).
    all: try (exact (ComparisonExpression_K l x T H)).
    all: try (exact (ComparableList_K l x T (B eq_refl) H)).
    all: try (exact (OrderByClause_K l x T H)).
    all: try (exact (OrderExpression_K l x T H)).
    all: try (exact (SubQuery_K l x T (B eq_refl) H)).
    all: try (exact (MapCreationExpression_K l x T H)).
    all: try (exact (MapInitializer_K l x T H)).
    all: try (exact (MapKeyInitializer_K l x T H)).
    all: try (exact (GroupByClause_K l x T H)).
    all: try (exact (SoslWithClause_K l x T H)).
    all: try (exact (SoqlWithClause_K l x T H)).
    all: try (exact (SoqlWithType_K l x T H)).
    all: try (exact (SoslWithType_K l x T H)).
    all: try (exact (WithDataCatExpression_K l x T H)).
    all: try (exact (WithDataCatFilter_K l x T H)).
    all: try (exact (WithDivisionExpression_K l x T H)).
    all: try (exact (WithSnippetExpression_K l x T H)).
    all: try (exact (WithNetworkExpression_K l x T H)).
    all: try (exact (WithMetadataExpression_K l x T H)).
    all: try (exact (WithSpellCorrectionExpression_K l x T H)).
    all: try (exact (WithPriceBookExpression_K l x T H)).
    all: try (exact (DottedIdentifier_K l x T H)).
    all: try (exact (ExpressionStatement_K l x T H)).
    all: try (exact (CountExpression_K l x T H)).
    all: try (exact (FunctionExpression_K l x T H)).
    all: try (exact (FieldIdentifier_K l x T H)).
    all: try (exact (GeoLocationType_K l x T H)).
    all: try (exact (SelectClause_K l x T H)).
    all: try (exact (StorageIdentifier_K l x T H)).
    all: try (exact (AndExpression_K l x T H)).
    all: try (exact (OrExpression_K l x T H)).
    all: try (exact (NotExpression_K l x T H)).
    all: try (exact (ForClause_K l x T H)).
    all: try (exact (RootMember_K l x T H)).
    all: try (exact (ClassMember_K l x T H)).
    all: try (exact (UnannotatedType_K l x T H)).
    all: try (exact (SimpleType_K l x T H)).
    all: try (exact (VariableInitializer_K l x T H)).
    all: try (exact (Expression_K l x T H)).
    all: try (exact (PrimaryExpression_K l x T H)).
    all: try (exact (ClassLiteral_K l x T H)).
    all: try (exact (Statement_K l x T H)).
    all: try (exact (Type__K l x T H)).
    all: try (exact (ValueExpression_K l x T H)).
    all: try (exact (SelectableExpression_K l x T H)).
    all: try (exact (FieldsExpression_K l x T H)).
    all: try (exact (AliasExpression_K l x T H)).
    all: try (exact (StorageVariant_K l x T H)).
    all: try (exact (LimitValue_K l x T H)).
    all: try (exact (SoqlLiteral_K l x T H)).
    all: try (exact (SetValue_K l x T H)).
    all: try (exact (ComparableListValue_K l x T H)).
    all: try (exact (OffsetClause_K l x T H)).
    all: try (exact (BooleanExpression_K _ l x T H)).
    all: try (exact (ConditionExpression_K _ l x T H)).
  Qed.
End Sorts.
End Comments.
End Strict.
