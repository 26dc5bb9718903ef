(* FormatterProofs.v: the entry point, error reports and the configuration. *)
From Verif Require Import Base Doc DocProofs Cst Comments Term New SpecTree Formatter SpecFormatter.
From Coq Require Import Lia.
Local Open Scope string_scope.

(* ---- C26 ---- *)
Section Again.
  Variables (ts : ustr -> node) (checked : bool) (stack : nat) (cfg : config).
  Lemma parse_goes src : n_error (ts src) = false -> parse ts src = ([], Ok (ts src)).
  Proof. intro H. unfold parse. rewrite H. reflexivity. Qed.
  Lemma report_no_overflow b n : report_of b n <> Overflow.
  Proof. unfold report_of, truncate_snippet. destruct (_ <=? _)%N; [discriminate|]. destruct (take_bytes _ _); discriminate. Qed.
  Lemma parse_report_no_overflow root : snd (parse_report root) <> Overflow.
  Proof.
    unfold parse_report. destruct (find_last_error_node root) as [e|]; [|discriminate].
    destruct (report_of false e) eqn:E; try discriminate; [|destruct (report_no_overflow _ _ E)].
    destruct (find_last_error_parent root None) as [p|]; [|discriminate].
    destruct (report_of true p) eqn:E2; try discriminate. destruct (report_no_overflow _ _ E2).
  Qed.
  Lemma parse_panics src : n_error (ts src) = true -> exists log why, parse ts src = (log, Panic why).
  Proof.
    intro H. unfold parse. rewrite H. pose proof (parse_report_no_overflow (ts src)) as K.
    destruct (parse_report (ts src)) as [log [[]|y|]]; simpl in *; eauto. congruence.
  Qed.

  Lemma first_call_keeps src : n_error (ts src) = false ->
    th_source (fst (fst (format_one ts checked stack cfg src fresh_thread))) = Some src.
  Proof.
    intro H. unfold format_one. rewrite (parse_goes _ H). simpl. destruct (collect_comments (ts src)); reflexivity.
  Qed.
  Lemma second_call src1 src2 : n_error (ts src1) = false -> n_error (ts src2) = false ->
    format_one ts checked stack cfg src2 (fst (fst (format_one ts checked stack cfg src1 fresh_thread)))
    = (fst (fst (format_one ts checked stack cfg src1 fresh_thread)), [], Panic "Source code is already set for this thread").
  Proof.
    intros H1 H2. pose proof (first_call_keeps src1 H1) as K.
    destruct (format_one ts checked stack cfg src1 fresh_thread) as [[s1 l1] r1]. simpl in *.
    unfold format_one. rewrite (parse_goes _ H2). unfold set_thread_source_code. rewrite K. reflexivity.
  Qed.
  Lemma call_after_syntax_error src1 src2 s : n_error (ts src1) = true ->
    fst (fst (format_one ts checked stack cfg src1 s)) = s /\
    format_one ts checked stack cfg src2 (fst (fst (format_one ts checked stack cfg src1 s))) = format_one ts checked stack cfg src2 s.
  Proof.
    intro H. destruct (parse_panics _ H) as (log & why & E).
    assert (K : fst (fst (format_one ts checked stack cfg src1 s)) = s) by (unfold format_one; rewrite E; reflexivity).
    rewrite K. auto.
  Qed.

  (* ---- C27 ---- *)
  Lemma syntax_error_no_text src : n_error (ts src) = true -> exists why, snd (format_source ts checked stack cfg src) = Panic why.
  Proof.
    intro H. destruct (parse_panics _ H) as (log & why & E). exists why. unfold format_source. rewrite E. reflexivity.
  Qed.
  (* ---- C29 ---- *)
  Lemma zero_indent src : cfg_indent_size cfg = 0%N -> forall out, snd (format_source ts checked stack cfg src) <> Ok out.
  Proof.
    intros H out. unfold format_source. destruct (parse ts src) as [log [root|y|]]; simpl; try discriminate.
    unfold format_tree. destruct (collect_comments root) as [m|y|]; simpl; try discriminate.
    destruct (new m checked stack Root (root_loc root)) as [d|y|]; simpl; try discriminate.
    unfold PrettyConfig_new. rewrite H. discriminate.
  Qed.
End Again.

(* ---- the reported node ---- *)
Definition go_last (f : node -> option node) :=
  fix go (cs : list node) (last : option node) : option node :=
    match cs with [] => last | c :: r => go r (if n_error c then f c else last) end.
Lemma find_last_unfold n : find_last_error_node n =
  if n_error n then go_last find_last_error_node (children n) (Some n) else None.
Proof. destruct n; reflexivity. Qed.
Lemma go_last_spec f cs : forall last,
  (Forall (fun c => n_error c = false) cs /\ go_last f cs last = last) \/
  exists before c after, cs = (before ++ c :: after)%list /\ n_error c = true /\
    Forall (fun c => n_error c = false) after /\ go_last f cs last = f c.
Proof.
  induction cs as [|x cs IH]; intro last; [left; auto|]. simpl.
  destruct (IH (if n_error x then f x else last)) as [[H1 H2]|(b & c & a & -> & H1 & H2 & H3)].
  - destruct (n_error x) eqn:E.
    + right. exists [], x, cs. auto.
    + left. auto.
  - right. exists (x :: b), c, a. auto.
Qed.
Lemma find_last_spec : forall n, n_error n = true -> exists e, find_last_error_node n = Some e /\ last_error n e.
Proof.
  apply (node_nested_ind (fun n => n_error n = true -> exists e, find_last_error_node n = Some e /\ last_error n e)).
  intros i cs IH H. rewrite find_last_unfold, H. set (n := Node i cs) in *. change cs with (children n) in IH.
  destruct (go_last_spec find_last_error_node (children n) (Some n)) as [[H1 ->]|(b & c & a & E & H1 & H2 & ->)].
  - exists n. split; [reflexivity|]. apply last_error_here; auto.
  - rewrite Forall_forall in IH. destruct (IH c) as (e & He & Hl); [rewrite E; apply in_or_app; simpl; auto|exact H1|].
    exists e. split; [exact He|]. eapply last_error_below; eauto.
Qed.

Lemma find_parent_unfold n p : find_last_error_parent n p =
  if n_error n then go_last (fun c => find_last_error_parent c (Some n)) (children n) p else None.
Proof. destruct n; reflexivity. Qed.
Lemma split_last (P : node -> bool) b1 c1 a1 b2 c2 a2 :
  (b1 ++ c1 :: a1 = b2 ++ c2 :: a2)%list -> P c1 = true -> P c2 = true ->
  Forall (fun c => P c = false) a1 -> Forall (fun c => P c = false) a2 -> c1 = c2.
Proof.
  revert b2. induction b1 as [|x b1 IH]; intros [|y b2] E H1 H2 F1 F2; simpl in E; injection E as E1 E2.
  - exact E1.
  - exfalso. rewrite Forall_forall in F1. rewrite (F1 c2) in H2; [discriminate|]. rewrite E2. apply in_or_app; simpl; auto.
  - exfalso. rewrite Forall_forall in F2. rewrite (F2 c1) in H1; [discriminate|]. rewrite <- E2. apply in_or_app; simpl; auto.
  - eapply IH; eauto.
Qed.
Lemma find_parent_spec : forall n p e, find_last_error_node n = Some e ->
  (find_last_error_parent n p = p /\ e = n) \/
  exists q, find_last_error_parent n p = Some q /\ In e (children q) /\ n_error q = true.
Proof.
  apply (node_nested_ind (fun n => forall p e, find_last_error_node n = Some e ->
    (find_last_error_parent n p = p /\ e = n) \/
    exists q, find_last_error_parent n p = Some q /\ In e (children q) /\ n_error q = true)).
  intros i cs IH p e H. rewrite find_last_unfold in H. rewrite find_parent_unfold.
  set (n := Node i cs) in *. change cs with (children n) in IH.
  destruct (n_error n) eqn:En; [|discriminate].
  destruct (go_last_spec find_last_error_node (children n) (Some n)) as [[H1 H2]|(b & c & a & E & H1 & H2 & H3)];
  destruct (go_last_spec (fun c => find_last_error_parent c (Some n)) (children n) p) as [[K1 K2]|(b' & c' & a' & E' & K1 & K2 & K3)].
  - left. split; [exact K2|congruence].
  - exfalso. rewrite Forall_forall in H1. rewrite (H1 c') in K1; [discriminate|]. rewrite E'. apply in_or_app; simpl; auto.
  - exfalso. rewrite Forall_forall in K1. rewrite (K1 c) in H1; [discriminate|]. rewrite E. apply in_or_app; simpl; auto.
  - right. rewrite E in E'. pose proof (split_last n_error _ _ _ _ _ _ E' H1 K1 H2 K2) as Ec. subst c'.
    rewrite H3 in H. rewrite K3. rewrite Forall_forall in IH.
    assert (Hin : In c (children n)) by (rewrite E; apply in_or_app; simpl; auto).
    destruct (IH c Hin (Some n) e H) as [[Q1 ->]|Q]; [|exact Q]. exists n. auto.
Qed.

Lemma last_error_unique n e e' : last_error n e -> last_error n e' -> e = e'.
Proof.
  intro H. revert e'. induction H as [n Hn Hf|n b c a e Hn E Hc Ha Hl IH]; intros e' H'; inversion H' as [n' Hn' Hf'|n' b' c' a' e2 Hn' E' Hc' Ha' Hl']; subst.
  - reflexivity.
  - exfalso. rewrite Forall_forall in Hf. rewrite (Hf c') in Hc'; [discriminate|]. rewrite E'. apply in_or_app; simpl; auto.
  - exfalso. rewrite Forall_forall in Hf'. rewrite (Hf' c) in Hc; [discriminate|]. rewrite E. apply in_or_app; simpl; auto.
  - rewrite E in E'. assert (c = c') as <- by exact (split_last n_error _ _ _ _ _ _ E' Hc Hc' Ha Ha'). auto.
Qed.

(* ---- C28 ---- *)
Lemma take_bytes_spec s : forall k p, take_bytes k s = Some p <-> exists q, s = (p ++ q)%list /\ ulen p = k.
Proof.
  assert (P1 : forall c, (0 < ulen1 c)%N).
  { intro c. unfold ulen1. destruct (c <? 128)%N; [lia|]. destruct (c <? 2048)%N; [lia|]. destruct (c <? 65536)%N; lia. }
  induction s as [|c s IH]; intros k p.
  - cbn [take_bytes]. destruct (k =? 0)%N eqn:E.
    + apply N.eqb_eq in E. subst k. split.
      * intro H. injection H as <-. exists []. auto.
      * intros (q & H & K). destruct p; [reflexivity|discriminate].
    + split; [discriminate|]. intros (q & H & K). destruct p; [|discriminate]. simpl in K. subst k. discriminate.
  - cbn [take_bytes]. destruct (k =? 0)%N eqn:E.
    + apply N.eqb_eq in E. subst k. split.
      * intro H. injection H as <-. exists (c :: s). auto.
      * intros (q & H & K). destruct p as [|x p]; [reflexivity|]. simpl in K. specialize (P1 x). lia.
    + apply N.eqb_neq in E. destruct (ulen1 c <=? k)%N eqn:Ek.
      * apply N.leb_le in Ek. split.
        -- intro H. destruct (take_bytes (k - ulen1 c) s) as [p'|] eqn:Et; [|discriminate]. injection H as <-.
           apply IH in Et as (q & -> & K). exists q. split; [reflexivity|]. simpl. lia.
        -- intros (q & H & K). destruct p as [|x p]; [simpl in K; congruence|]. injection H as <- ->.
           simpl in K. assert (Hp : take_bytes (k - ulen1 c) (p ++ q) = Some p) by (apply IH; exists q; split; [reflexivity|lia]).
           rewrite Hp. reflexivity.
      * apply N.leb_gt in Ek. split; [discriminate|]. intros (q & H & K). destruct p as [|x p]; [simpl in K; congruence|].
        injection H as <- ->. simpl in K. lia.
Qed.
Lemma snippet_spec s t : truncate_snippet s = Ok t <-> snippet_of s t.
Proof.
  unfold truncate_snippet, snippet_of, snippet_max_len. destruct (ulen s <=? 80)%N eqn:E.
  - apply N.leb_le in E. split.
    + intro H. injection H as <-. auto.
    + intros [[_ ->]|[H _]]; [reflexivity|lia].
  - apply N.leb_gt in E. split.
    + destruct (take_bytes 80 s) as [p|] eqn:Et; [|discriminate]. intro H. injection H as <-.
      apply take_bytes_spec in Et as (q & Hs & Hp). right. split; [exact E|]. exists p, q. auto.
    + intros [[H _]|(_ & p & q & Hs & Hp & ->)]; [lia|].
      assert (K : take_bytes 80 s = Some p) by (apply take_bytes_spec; eauto). rewrite K. reflexivity.
Qed.
Lemma snippet_fails s : (exists why, truncate_snippet s = Panic why) <-> (80 < ulen s)%N /\ ~ boundary_at_80 s.
Proof.
  unfold truncate_snippet, boundary_at_80, snippet_max_len. destruct (ulen s <=? 80)%N eqn:E.
  - apply N.leb_le in E. split; [intros (y & H); discriminate|intros [H _]; lia].
  - apply N.leb_gt in E. destruct (take_bytes 80 s) as [p|] eqn:Et.
    + split; [intros (y & H); discriminate|]. intros [_ H]. exfalso. apply H. apply take_bytes_spec in Et as (q & Hq). eauto.
    + split; [|eauto]. intros _. split; [exact E|]. intros (p & q & Hs & Hp).
      assert (K : take_bytes 80 s = Some p) by (apply take_bytes_spec; eauto). congruence.
Qed.

Lemma report_spec b n r : report_of b n = Ok r ->
  r_parent r = b /\ r_kind r = n_kind n /\ r_sbyte r = n_sbyte n /\ r_ebyte r = n_ebyte n /\ snippet_of (n_text n) (r_snippet r).
Proof.
  unfold report_of. destruct (truncate_snippet (n_text n)) as [s|y|] eqn:E; simpl; try discriminate.
  intro H. injection H as <-. simpl. repeat split; auto. apply snippet_spec. exact E.
Qed.

(* ---- C27: what is reported ---- *)
Section Reports.
  Variables (ts : ustr -> node) (checked : bool) (stack : nat) (cfg : config).
  Lemma reported src : n_error (ts src) = true ->
    exists e, last_error (ts src) e /\ (forall e', last_error (ts src) e' -> e' = e) /\
      match fst (format_source ts checked stack cfg src) with
      | [] => (80 < ulen (n_text e))%N /\ ~ boundary_at_80 (n_text e)
      | r :: more =>
          r_parent r = false /\ r_kind r = n_kind e /\ r_sbyte r = n_sbyte e /\ r_ebyte r = n_ebyte e /\
          snippet_of (n_text e) (r_snippet r) /\
          match more with
          | [] => e = ts src \/ exists p, In e (children p) /\ (80 < ulen (n_text p))%N /\ ~ boundary_at_80 (n_text p)
          | [r2] => exists p, In e (children p) /\ r_parent r2 = true /\ r_kind r2 = n_kind p /\ r_sbyte r2 = n_sbyte p /\
                      r_ebyte r2 = n_ebyte p /\ snippet_of (n_text p) (r_snippet r2)
          | _ => False
          end
      end.
  Proof.
    intro H. destruct (find_last_spec _ H) as (e & He & Hl). exists e. split; [exact Hl|].
    split; [intros e' H'; eapply last_error_unique; eauto|].
    assert (El : fst (format_source ts checked stack cfg src) = fst (parse_report (ts src))).
    { unfold format_source, parse. rewrite H. destruct (parse_report (ts src)); reflexivity. }
    rewrite El. unfold parse_report. rewrite He.
    assert (F : forall b n y, report_of b n = Panic y -> (80 < ulen (n_text n))%N /\ ~ boundary_at_80 (n_text n)).
    { intros b n y K. apply snippet_fails. unfold report_of in K. destruct (truncate_snippet (n_text n)); try discriminate. eauto. }
    destruct (report_of false e) as [r|y|] eqn:Er; simpl.
    - apply report_spec in Er. destruct (find_parent_spec _ None _ He) as [[-> ->]|(q & -> & Hq & _)].
      + simpl. intuition.
      + destruct (report_of true q) as [r2|y|] eqn:Er2; simpl.
        * apply report_spec in Er2. repeat split; try apply Er. exists q. intuition.
        * repeat split; try apply Er. right. exists q. apply F in Er2. intuition.
        * destruct (report_no_overflow _ _ Er2).
    - exact (F _ _ _ Er).
    - destruct (report_no_overflow _ _ Er).
  Qed.
  Lemma nothing_reported src : n_error (ts src) = false -> fst (format_source ts checked stack cfg src) = [].
  Proof. intro H. unfold format_source. rewrite (parse_goes ts src H). reflexivity. Qed.
End Reports.
