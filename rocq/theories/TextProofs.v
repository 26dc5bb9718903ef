(* TextProofs.v: the printed form of comments: what it consists of, and that
   reading it again changes nothing. *)
From Coq Require Import Lia.
From Verif Require Import Base Doc DocBuilder DocProofs Cst Comments SpecComments SpecText FormatProofs.

(* ---- printing a comment on its own, at an indentation ---- *)

Definition mkch (i : N) (d : doc) : chunk := {| ch_doc := d; ch_indent := i; ch_flat := false |}.

Lemma print_line_docs i w ls rest : forall col out pend,
  Forall (fun l => l <> [c_sp]) ls -> ls <> [] ->
  exists n col',
  forall m s', print_loop m w {| p_chunks := rest; p_col := col';
      p_out := out ++ (match pend with Some j => c_nl :: spaces j | None => [] end) ++ at_indent i ls;
      p_pending := None |} = Some s' ->
    print_loop (n + m) w {| p_chunks := map (mkch i) (line_docs ls) ++ rest; p_col := col; p_out := out; p_pending := pend |} = Some s'.
Proof.
  assert (HT : forall l cs col out pend, l <> [c_sp] -> exists col',
    print_step w {| p_chunks := mkch i (txt l) :: cs; p_col := col; p_out := out; p_pending := pend |} =
    Some {| p_chunks := cs; p_col := col';
            p_out := out ++ (match pend with Some j => c_nl :: spaces j | None => [] end) ++ l; p_pending := None |}).
  { intros l cs col out pend Hl. unfold print_step, print_chunk, push_text, txt, mkch. cbn [p_chunks ch_doc p_col p_out p_pending].
    assert (E : ustr_eqb l [c_sp] = false).
    { destruct (ustr_eqb l [c_sp]) eqn:E; [|reflexivity]. apply ustr_eqb_eq in E. contradiction. }
    destruct pend; cbn [flush p_pending p_out p_col p_chunks]; rewrite E; cbn [andb];
      rewrite <- ?app_assoc; eexists; reflexivity. }
  induction ls as [|l ls IH]; intros col out pend HF Hn; [congruence|]. inversion HF as [|? ? Hl HF']; subst.
  destruct ls as [|l' ls].
  - destruct (HT l rest col out pend Hl) as (col' & E).
    exists 1%nat, col'. intros m s' H. cbn [line_docs map app at_indent Nat.add] in *. cbn [print_loop p_chunks].
    rewrite E. exact H.
  - change (line_docs (l :: l' :: ls)) with (txt l :: nl :: line_docs (l' :: ls)).
    destruct (HT l (mkch i nl :: map (mkch i) (line_docs (l' :: ls)) ++ rest) col out pend Hl) as (c1 & E1).
    destruct (IH c1 (out ++ (match pend with Some j => c_nl :: spaces j | None => [] end) ++ l) (Some i) HF' ltac:(discriminate)) as (n & c2 & H2).
    exists (S (S n)), c2. intros m s' H. set (D := line_docs (l' :: ls)) in *. cbn [Nat.add]. cbn [print_loop p_chunks map app].
    rewrite E1. cbn [print_loop p_chunks].
    unfold print_step at 1. cbn [p_chunks p_col p_out p_pending print_chunk mkch ch_doc nl ch_indent set_pending].
    apply H2. change (at_indent i (l :: l' :: ls)) with (l ++ c_nl :: repeat c_sp (N.to_nat i) ++ at_indent i (l' :: ls)) in H. unfold spaces. rewrite <- !app_assoc in *. exact H.
Qed.

Theorem comment_printed c i w :
  Forall (fun l => l <> [c_sp]) (normal_lines (c_line c) (c_value c)) ->
  normal_lines (c_line c) (c_value c) <> [] ->
  pretty_print (Indent i (Concat (comment_docs c))) w =
  at_indent i (normal_lines (c_line c) (c_value c)) ++ (if c_line c then c_nl :: spaces i else []).
Proof.
  intros HF Hn. rewrite comment_docs_lines. set (ls := normal_lines _ _) in *.
  unfold pretty_print, pretty_print_opt.
  set (d := Indent i _).
  destruct (print_line_docs i w ls (map (mkch i) (if c_line c then [nl] else [])) 0 [] None HF Hn) as (n & col' & H).
  cbn [app] in H.
  assert (HI : forall k, print_loop (S (S k)) w (print_init d) =
    print_loop k w {| p_chunks := map (mkch i) (line_docs ls) ++ map (mkch i) (if c_line c then [nl] else []);
                      p_col := 0; p_out := []; p_pending := None |}).
  { intro k. rewrite <- map_app. set (D := line_docs ls ++ _) in *.
    unfold d. cbn. unfold push_chunks. cbn [p_chunks p_col p_out p_pending]. rewrite app_nil_r. reflexivity. }
  assert (Hd : exists m s', print_loop m w (print_init d) = Some s' /\
    p_out (flush s') = at_indent i ls ++ (if c_line c then c_nl :: spaces i else [])).
  { destruct (c_line c).
    - eexists (S (S (n + 1)))%nat, _. split; [rewrite HI; apply H; cbn; reflexivity|]. reflexivity.
    - eexists (S (S (n + 0)))%nat, _. split; [rewrite HI; apply H; cbn; reflexivity|].
      cbn. rewrite app_nil_r. reflexivity. }
  destruct Hd as (m & s' & Hm & Ho).
  destruct (print_loop_total (dsteps d) w (print_init d)) as (s2 & H2); [cbn [print_init p_chunks ssteps ch_doc]; lia|].
  rewrite H2.
  assert (E1 := print_loop_more _ (Nat.max m (dsteps d)) _ _ _ Hm ltac:(lia)).
  assert (E2 := print_loop_more _ (Nat.max m (dsteps d)) _ _ _ H2 ltac:(lia)).
  congruence.
Qed.

(* ---- trimming ---- *)

Definition tight (s : ustr) : Prop :=
  match s with [] => True | c :: _ => is_ws c = false end /\ trim_end s = s.

Lemma trim_start_app_ws p s : Forall (fun c => is_ws c = true) p -> trim_start (p ++ s) = trim_start s.
Proof. induction 1 as [|c p Hc _ IH]; cbn; [reflexivity|]. rewrite Hc. exact IH. Qed.
Lemma spaces_ws k : Forall (fun c => is_ws c = true) (repeat c_sp k).
Proof. induction k; constructor; auto. Qed.
Lemma trim_spaces k s : trim (repeat c_sp k ++ s) = trim s.
Proof. unfold trim. rewrite trim_start_app_ws by apply spaces_ws. reflexivity. Qed.
Lemma trim_end_idem s : trim_end (trim_end s) = trim_end s.
Proof.
  induction s as [|c s IH]; [reflexivity|]. cbn. destruct (trim_end s) as [|y t] eqn:E.
  - destruct (is_ws c) eqn:W; [reflexivity|]. cbn. rewrite W. reflexivity.
  - change (trim_end (c :: y :: t)) with (match trim_end (y :: t) with [] => if is_ws c then [] else [c] | t' => c :: t' end).
    rewrite IH. reflexivity.
Qed.
Lemma trim_end_app_last p c : is_ws c = false -> trim_end (p ++ [c]) = p ++ [c].
Proof.
  intro H. induction p as [|x p IH]; cbn; [rewrite H; reflexivity|]. rewrite IH.
  destruct p; reflexivity.
Qed.
Lemma trim_end_app_tight p s : s <> [] -> trim_end s = s -> trim_end (p ++ s) = p ++ s.
Proof.
  intros Hn H. induction p as [|x p IH]; [exact H|]. cbn. rewrite IH.
  destruct (p ++ s) eqn:E; [|reflexivity]. apply app_eq_nil in E as [_ ->]. congruence.
Qed.
Lemma trim_start_head s : match trim_start s with [] => True | c :: _ => is_ws c = false end.
Proof. induction s as [|c s IH]; cbn; [exact I|]. destruct (is_ws c) eqn:E; [exact IH|exact E]. Qed.
Lemma trim_end_head s : match s with [] => True | c :: _ => is_ws c = false end ->
  match trim_end s with [] => True | c :: _ => is_ws c = false end.
Proof. destruct s as [|c s]; [auto|]. intro H. rewrite trim_end_cons by exact H. exact H. Qed.
Lemma trim_tight s : tight (trim s).
Proof.
  split; [|apply trim_end_idem]. apply trim_end_head, trim_start_head.
Qed.
Lemma tight_trim s : tight s -> trim s = s.
Proof.
  intros [H1 H2]. unfold trim. destruct s as [|c s]; [reflexivity|].
  cbn [trim_start]. rewrite H1. exact H2.
Qed.
Lemma trim_end_tail c s : trim_end (c :: s) = c :: s -> trim_end s = s.
Proof.
  cbn. destruct (trim_end s) eqn:E; [|congruence]. destruct (is_ws c); [discriminate|]. congruence.
Qed.
Lemma trim_start_trim_end s : trim_end s = s -> trim_end (trim_start s) = trim_start s.
Proof.
  induction s as [|c s IH]; [reflexivity|]. intro H. cbn [trim_start]. destruct (is_ws c); [|exact H].
  apply IH. eapply trim_end_tail; eassumption.
Qed.
Lemma without_star_tight l : tight (without_star l).
Proof.
  unfold without_star. assert (H := trim_tight l). destruct (trim l) as [|c r]; [repeat split|].
  destruct (c =? c_star)%N; [|exact H]. split; [apply trim_start_head|].
  apply trim_start_trim_end. destruct H as [_ H]. eapply trim_end_tail; eassumption.
Qed.

Lemma trim_starred k x : tight x ->
  trim (repeat c_sp k ++ starred x) = c_star :: (match x with [] => [] | _ => c_sp :: x end).
Proof.
  intros [H1 H2]. rewrite trim_spaces. unfold starred. destruct x as [|c x]; [reflexivity|].
  cbn [not_empty]. unfold trim.
  change (trim_start (U " * " ++ c :: x)) with ([c_star; c_sp] ++ c :: x).
  rewrite trim_end_app_tight by (congruence || exact H2). reflexivity.
Qed.
Lemma without_star_starred k x : tight x -> without_star (repeat c_sp k ++ starred x) = x.
Proof.
  intro H. unfold without_star. rewrite trim_starred by exact H. cbn [N.eqb c_star]. 
  change (42 =? 42)%N with true. cbv iota.
  destruct x as [|c x]; [reflexivity|]. destruct H as [H1 _]. cbn [trim_start]. 
  change (is_ws c_sp) with true. cbv iota. cbn [trim_start]. rewrite H1. reflexivity.
Qed.

(* ---- lines ---- *)

Definition no_nl (s : ustr) : Prop := ~ In c_nl s.
Lemma split_no_nl s : Forall no_nl (split_on c_nl s).
Proof.
  induction s as [|c s IH]; cbn; [repeat constructor; intros []|].
  destruct (split_on c_nl s) as [|p ps] eqn:E.
  - constructor; [|constructor]. intros [->|[]]. destruct s; discriminate || (cbn in E; destruct (split_on c_nl s); [discriminate|destruct (_ =? _)%N; discriminate]).
  - destruct (N.eqb_spec c c_nl) as [->|Hc]; [constructor; [intros []|exact IH]|].
    inversion IH; subst. constructor; [|assumption]. intros [->|H]; auto.
Qed.
Lemma split_ne s : split_on c_nl s <> [].
Proof. destruct s as [|c s]; cbn; [discriminate|]. destruct (split_on c_nl s); [discriminate|]. destruct (_ =? _)%N; discriminate. Qed.
Lemma split_line l : no_nl l -> split_on c_nl l = [l].
Proof.
  induction l as [|c l IH]; [reflexivity|]. intro H. cbn. rewrite IH by (intro; apply H; right; assumption).
  destruct (N.eqb_spec c c_nl) as [->|]; [exfalso; apply H; left; reflexivity|reflexivity].
Qed.
Lemma split_app l t : no_nl l -> split_on c_nl (l ++ c_nl :: t) = l :: split_on c_nl t.
Proof.
  intro H. induction l as [|c l IH].
  - cbn. destruct (split_on c_nl t) eqn:E; [exfalso; eapply split_ne; eassumption|reflexivity].
  - cbn [app split_on]. rewrite IH by (intro; apply H; right; assumption).
    destruct (N.eqb_spec c c_nl) as [->|]; [exfalso; apply H; left; reflexivity|reflexivity].
Qed.
Lemma spaces_no_nl k : no_nl (repeat c_sp k).
Proof. intro H. apply repeat_spec in H. discriminate. Qed.

Lemma split_prefix p s q qs : no_nl p -> split_on c_nl s = q :: qs -> split_on c_nl (p ++ s) = (p ++ q) :: qs.
Proof.
  intros H E. induction p as [|c p IH]; [exact E|]. cbn [app split_on]. rewrite IH by (intro; apply H; right; assumption).
  destruct (N.eqb_spec c c_nl) as [->|]; [exfalso; apply H; left; reflexivity|reflexivity].
Qed.

Definition respaced (l r : ustr) : Prop := exists k, r = repeat c_sp k ++ l.

(* The lines of a printed text are the printed lines, behind spaces. *)
Lemma split_text l0 ls s :
  text_of_lines (l0 :: ls) s -> Forall no_nl (l0 :: ls) ->
  exists rs, split_on c_nl s = l0 :: rs /\ Forall2 respaced ls rs.
Proof.
  intros H. remember (l0 :: ls) as L eqn:EL. revert l0 ls EL.
  induction H as [l|l k l' ls' s H IH]; intros l0 ls EL HF.
  - injection EL as -> <-. inversion HF; subst. exists []. split; [apply split_line; assumption|constructor].
  - injection EL as -> <-. inversion HF as [|? ? Hl HF']; subst.
    destruct (IH _ _ eq_refl HF') as (rs & E & F).
    rewrite split_app by assumption.
    rewrite (split_prefix _ _ _ _ (spaces_no_nl k) E).
    exists ((repeat c_sp k ++ l') :: rs). split; [reflexivity|].
    constructor; [exists k; reflexivity|exact F].
Qed.

Lemma text_ends ls l s : text_of_lines (ls ++ [l]) s -> exists p, s = p ++ l.
Proof.
  remember (ls ++ [l]) as L eqn:EL. intro H. revert ls EL.
  induction H as [x|x k l' ls' s H IH]; intros ls EL.
  - destruct ls as [|y ls]; [injection EL as ->; exists []; reflexivity|].
    destruct ls; discriminate.
  - destruct ls as [|y ls]; [discriminate|]. injection EL as -> EL.
    destruct (IH _ EL) as [p ->]. exists (y ++ c_nl :: repeat c_sp k ++ p).
    rewrite <- !app_assoc. cbn. rewrite <- app_assoc. reflexivity.
Qed.
