(* CliProofs.v: every execution of the command line program. *)
From Verif Require Import Base DocProofs Cst Comments Term New Formatter Schedule ScheduleProofs Cli SpecCli.
From Coq Require Import Lia Permutation.
Local Open Scope string_scope.

Lemma ustr_eqb_false a b : ustr_eqb a b = false -> a <> b.
Proof. intros H ->. rewrite ustr_eqb_refl in H. discriminate. Qed.
Lemma upd_same fs p c : upd fs p c p = c.
Proof. unfold upd. rewrite ustr_eqb_refl. reflexivity. Qed.
Lemma upd_other fs p c q : q <> p -> upd fs p c q = fs q.
Proof. unfold upd. intro H. destruct (ustr_eqb q p) eqn:E; [|reflexivity]. apply ustr_eqb_eq in E. contradiction. Qed.
Lemma upd_cong f g p c : same f g -> same (upd f p c) (upd g p c).
Proof. intros H q. unfold upd. destruct (ustr_eqb q p); auto. Qed.
Lemma upd_cong_but r f g p c : same_but r f g -> same_but r (upd f p c) (upd g p c).
Proof. intros H q Hq. unfold upd. destruct (ustr_eqb q p); auto. Qed.
Lemma outside_app a b fs : outside (a ++ b) fs = outside b (outside a fs).
Proof. revert fs. induction a as [|o a IH]; intro fs; [reflexivity|]. destruct o; simpl; apply IH. Qed.

Section Proofs.
  Variables (ts : ustr -> node) (checked : bool) (stack : nat) (toml : ustr -> toml_fields + ustr).
  Variable a : args.
  Notation run := (cli_run ts checked stack toml a).
  Notation step := (cli_step ts checked stack toml a).
  Notation work := (work ts checked stack).
  Notation loaded := (loaded toml a).
  Notation path := (a_path a).

  Lemma run_app s x y : run s (x ++ y) = match run s x with Some s' => run s' y | None => None end.
  Proof. revert s. induction x as [|o x IH]; intro s; [reflexivity|]. simpl. destruct (step s o); [apply IH|reflexivity]. Qed.
  Lemma run_in s ops s' o : run s ops = Some s' -> In o ops ->
    exists x y s1 s2, ops = (x ++ o :: y)%list /\ run s x = Some s1 /\ step s1 o = Some s2 /\ run s2 y = Some s'.
  Proof.
    intros H Hin. apply in_split in Hin as (x & y & ->). rewrite run_app in H.
    destruct (run s x) as [s1|] eqn:E; [|discriminate]. simpl in H. destruct (step s1 o) as [s2|] eqn:E2; [|discriminate].
    exists x, y, s1, s2. auto.
  Qed.

  Definition threads (ops : list cli_op) : list op :=
    flat_map (fun o => match o with Thread x => [x] | _ => [] end) ops.
  Lemma threads_in ops x : In x (threads ops) <-> In (Thread x) ops.
  Proof.
    unfold threads. rewrite in_flat_map. split.
    - intros (o & Ho & Hx). destruct o; simpl in Hx; try tauto. destruct Hx as [<-|[]]. exact Ho.
    - intro H. exists (Thread x). simpl. auto.
  Qed.
  Lemma threads_app x y : threads (x ++ y) = (threads x ++ threads y)%list.
  Proof. apply flat_map_app. Qed.

  Definition no_check (ops : list cli_op) : Prop := forall r, ~ In (Check r) ops.
  Definition ran (ops : list cli_op) (cfg : config) (c : reading) : Prop :=
    loaded ops cfg /\ forall i c', In (Thread (Read i c')) ops <-> i = 0 /\ c' = c.
  Definition unchanged (fs : files) (ops : list cli_op) (s : cli) : Prop := same (c_fs s) (outside ops fs).
  Definition written (fs : files) (ops : list cli_op) (s : cli) (c : ustr) : Prop :=
    same_but path (c_fs s) (outside ops fs) /\ (untouched path ops -> c_fs s path = Some c).
  Definition tail : list line := if a_time a then [Elapsed] else [].

  (* Every state that can be reached. *)
  Inductive reach (fs : files) (ops : list cli_op) (s : cli) : Prop :=
  | R_start :
      c_pc s = At_start -> c_out s = [] -> unchanged fs ops s -> threads ops = [] -> no_check ops -> reach fs ops s
  | R_format cfg st :
      c_pc s = At_format cfg st -> c_out s = [] -> unchanged fs ops s -> no_check ops -> loaded ops cfg ->
      Schedule.schedule ts checked stack cfg (Schedule.init [path]) (threads ops) = Some st -> reach fs ops s
  | R_result cfg c r pr :
      c_pc s = At_result 0 [r] -> c_out s = map Report pr -> unchanged fs ops s -> no_check ops ->
      ran ops cfg c -> snd (work cfg c) = Ok r -> Permutation pr (fst (work cfg c)) -> reach fs ops s
  | R_writing cfg src v done rest :
      c_pc s = At_write rest 0 [] -> c_out s = [] -> a_check a = false -> a_write a = true ->
      ran ops cfg (inl src) -> formats ts checked stack cfg src v -> v = (done ++ rest)%list ->
      written fs ops s done -> reach fs ops s
  | R_wrote cfg src v code :
      (c_pc s = At_result 1 [] /\ code = [] \/ c_pc s = At_exit 0 /\ code = tail) -> a_check a = false -> a_write a = true ->
      c_out s = (Println (U "Formatted content written back to: " ++ path ++ [c_nl]) :: code)%list ->
      ran ops cfg (inl src) -> formats ts checked stack cfg src v -> written fs ops s v -> reach fs ops s
  | R_printed cfg src v code :
      (c_pc s = At_result 1 [] /\ code = [] \/ c_pc s = At_exit 0 /\ code = tail) -> a_check a = false -> a_write a = false ->
      c_out s = (Println v :: code)%list ->
      ran ops cfg (inl src) -> formats ts checked stack cfg src v -> unchanged fs ops s -> reach fs ops s
  | R_bad_config p r :
      c_pc s = At_exit 1 -> a_config a = Some p -> In (Start r) ops -> (exists e, Config_from_file toml r = inr e) ->
      c_out s = [] -> unchanged fs ops s -> no_check ops -> threads ops = [] -> reach fs ops s
  | R_abort cfg c pr :
      c_pc s = At_exit 134 -> loaded ops cfg -> In (Thread (Read 0 c)) ops -> snd (work cfg c) = Overflow ->
      c_out s = map Report pr -> unchanged fs ops s -> no_check ops -> reach fs ops s
  | R_failed cfg c e pr :
      c_pc s = At_exit 1 -> ran ops cfg c -> snd (work cfg c) = Ok (inr e) ->
      c_out s = map Report pr -> unchanged fs ops s -> no_check ops -> reach fs ops s
  | R_checked cfg src v r :
      a_check a = true -> ran ops cfg (inl src) -> formats ts checked stack cfg src v ->
      (forall r', In (Check r') ops <-> r' = r) -> unchanged fs ops s ->
      (r = inl v /\ c_pc s = At_exit 0 /\
         c_out s = (Println (U "File is already formatted: " ++ path) :: tail)%list \/
       r <> inl v /\ c_pc s = At_exit 1 /\ c_out s = []) -> reach fs ops s
  | R_no_create cfg src v :
      c_pc s = At_exit 1 -> a_check a = false -> a_write a = true -> In (Create false) ops ->
      ran ops cfg (inl src) -> formats ts checked stack cfg src v -> c_out s = [] -> unchanged fs ops s -> reach fs ops s
  | R_no_write cfg src v done rest :
      c_pc s = At_exit 1 -> a_check a = false -> a_write a = true -> In WriteFails ops ->
      ran ops cfg (inl src) -> formats ts checked stack cfg src v -> v = (done ++ rest)%list ->
      c_out s = [] -> written fs ops s done -> reach fs ops s.

  (* ---- one more step ---- *)
  Definition is_env (o : cli_op) : bool := match o with Env _ _ => true | _ => false end.
  Definition is_thread (o : cli_op) : bool := match o with Thread _ => true | _ => false end.
  Definition is_check (o : cli_op) : bool := match o with Check _ => true | _ => false end.
  Lemma loaded_more ops o cfg : loaded ops cfg -> loaded (ops ++ [o]) cfg.
  Proof.
    unfold SpecCli.loaded. destruct (a_config a); [|auto]. intros (c & H1 & H2). exists c. rewrite in_app_iff. auto.
  Qed.
  Lemma ran_more ops o cfg c : is_thread o = false -> ran ops cfg c -> ran (ops ++ [o]) cfg c.
  Proof.
    intros Ho [H1 H2]. split; [apply loaded_more; exact H1|]. intros i c'. rewrite <- H2, in_app_iff. simpl.
    split; [intros [H|[H|[]]]; [exact H|subst; discriminate]|auto].
  Qed.
  Lemma no_check_more ops o : is_check o = false -> no_check ops -> no_check (ops ++ [o]).
  Proof. intros Ho H r Hin. apply in_app_or in Hin as [Hin|[Hin|[]]]; [exact (H r Hin)|subst; discriminate]. Qed.
  Lemma threads_more ops o : is_thread o = false -> threads (ops ++ [o]) = threads ops.
  Proof. intro H. rewrite threads_app. destruct o; try discriminate; simpl; apply app_nil_r. Qed.
  Lemma checks_more ops o r : is_check o = false -> (forall r', In (Check r') ops <-> r' = r) ->
    forall r', In (Check r') (ops ++ [o]) <-> r' = r.
  Proof.
    intros Ho H r'. rewrite <- H, in_app_iff. simpl. split; [intros [E|[E|[]]]; [exact E|subst; discriminate]|auto].
  Qed.
  Lemma outside_more ops o fs : is_env o = false -> outside (ops ++ [o]) fs = outside ops fs.
  Proof. intro H. rewrite outside_app. destruct o; try discriminate; reflexivity. Qed.
  Lemma unchanged_more fs ops o s s' : is_env o = false -> c_fs s' = c_fs s -> unchanged fs ops s -> unchanged fs (ops ++ [o]) s'.
  Proof. intros H E U q. rewrite E, outside_more by exact H. apply U. Qed.
  Lemma untouched_less ops o p : untouched p (ops ++ [o]) -> untouched p ops.
  Proof. intros H c Hin. apply (H c). apply in_or_app. auto. Qed.
  Lemma written_more fs ops o s s' c : is_env o = false -> c_fs s' = c_fs s -> written fs ops s c -> written fs (ops ++ [o]) s' c.
  Proof.
    intros H E [W1 W2]. split.
    - intros q Hq. rewrite E, outside_more by exact H. apply W1. exact Hq.
    - intro U. rewrite E. apply W2. eapply untouched_less; exact U.
  Qed.
  Lemma in_more (ops : list cli_op) o x : In x ops -> In x (ops ++ [o]).
  Proof. intro H. apply in_or_app. auto. Qed.

  Lemma reach_env fs ops s p c : reach fs ops s ->
    reach fs (ops ++ [Env p c]) {| c_fs := upd (c_fs s) p c; c_out := c_out s; c_pc := c_pc s |}.
  Proof.
    set (s' := {| c_fs := upd (c_fs s) p c; c_out := c_out s; c_pc := c_pc s |}).
    assert (U : unchanged fs ops s -> unchanged fs (ops ++ [Env p c]) s').
    { intro H. unfold unchanged. rewrite outside_app. simpl. apply upd_cong. exact H. }
    assert (W : forall x, written fs ops s x -> written fs (ops ++ [Env p c]) s' x).
    { intros x [W1 W2]. split.
      - rewrite outside_app. simpl. apply upd_cong_but. exact W1.
      - intro H. simpl. rewrite upd_other; [apply W2; eapply untouched_less; exact H|].
        intro E. subst p. apply (H c). apply in_or_app. simpl. auto. }
    intros [].
    - apply R_start; auto. rewrite threads_more by reflexivity. assumption. apply no_check_more; auto.
    - eapply R_format; eauto using no_check_more, loaded_more. rewrite threads_more by reflexivity. assumption.
    - eapply R_result; eauto using no_check_more, ran_more.
    - eapply R_writing; eauto using no_check_more, ran_more.
    - eapply R_wrote; eauto using no_check_more, ran_more.
    - eapply R_printed; eauto using no_check_more, ran_more.
    - eapply R_bad_config; eauto using no_check_more, in_more. rewrite threads_more by reflexivity. assumption.
    - eapply R_abort; eauto using no_check_more, loaded_more, in_more.
    - eapply R_failed; eauto using no_check_more, ran_more.
    - eapply R_checked; eauto using ran_more. apply checks_more; auto.
    - eapply R_no_create; eauto using ran_more, in_more.
    - eapply R_no_write; eauto using ran_more, in_more.
  Qed.

  Lemma format_source_fresh cfg src :
    snd (format_one ts checked stack cfg src fresh_thread) = snd (format_source ts checked stack cfg src).
  Proof.
    unfold format_one, format_source. destruct (parse ts src) as [log [root|y|]]; try reflexivity.
    simpl. unfold format_tree. destruct (collect_comments root) as [m|y|]; reflexivity.
  Qed.

  Lemma step_not_env s o s' : step s o = Some s' -> is_env o = false ->
    c_pc s <> At_exit 0 /\ c_pc s <> At_exit 1 /\ c_pc s <> At_exit 134.
  Proof. intros H He. destruct o; try discriminate; simpl in H; destruct (c_pc s); repeat split; try discriminate. Qed.

  Lemma reach_step fs ops s o s' : reach fs ops s -> step s o = Some s' -> reach fs (ops ++ [o]) s'.
  Proof.
    intros R H. destruct (is_env o) eqn:He.
    { destruct o; try discriminate. simpl in H. injection H as <-. apply reach_env. exact R. }
    destruct (step_not_env _ _ _ H He) as (X0 & X1 & X2). destruct R.
    - (* start *)
      destruct o as [r|x| |r|b|k| | | |p c]; simpl in H; rewrite H0 in H; try discriminate.
      destruct (a_config a) as [p|] eqn:Ec.
      + destruct (may_read (c_fs s) p r) eqn:Em; [|discriminate].
        destruct (Config_from_file toml r) as [cfg|e] eqn:Ef; injection H as <-.
        * eapply R_format; simpl; eauto using no_check_more.
          -- apply (unchanged_more fs ops (Start r) s); auto.
          -- unfold SpecCli.loaded. rewrite Ec. destruct r as [x|e]; [|discriminate].
             exists x. split; [apply in_or_app; simpl; auto|exact Ef].
          -- rewrite threads_more, H3 by reflexivity. reflexivity.
        * eapply R_bad_config; simpl; eauto using no_check_more.
          -- apply in_or_app. simpl; auto.
          -- apply (unchanged_more fs ops (Start r) s); auto.
          -- rewrite threads_more, H3 by reflexivity. reflexivity.
      + injection H as <-. eapply R_format; simpl; eauto using no_check_more.
        * apply (unchanged_more fs ops (Start r) s); auto.
        * unfold SpecCli.loaded. rewrite Ec. reflexivity.
        * rewrite threads_more, H3 by reflexivity. reflexivity.
    - (* format *)
      destruct o as [r|x| |r|b|k| | | |p c]; simpl in H; rewrite H0 in H; try discriminate.
      + destruct (match x with Read _ r => may_read (c_fs s) path r | _ => true end); [|discriminate].
        destruct (Schedule.step ts checked stack cfg st x) as [st'|] eqn:Es; [|discriminate]. injection H as <-.
        eapply R_format; simpl; eauto using no_check_more, loaded_more.
        * apply (unchanged_more fs ops (Thread x) s); auto.
        * rewrite threads_app. simpl. rewrite schedule_app, H5. simpl. rewrite Es. reflexivity.
      + destruct (returned st) eqn:Er.
        * injection H as <-. destruct (one_file _ _ _ _ _ _ _ H5 Er) as (c & r & C1 & C2 & C3 & C4).
          eapply (R_result fs _ _ cfg c r (printed st)); simpl; eauto using no_check_more.
          -- rewrite C3. reflexivity.
          -- rewrite H1. reflexivity.
          -- apply (unchanged_more fs ops Collected s); auto.
          -- apply ran_more; [reflexivity|]. split; [exact H4|]. intros i c'. rewrite <- threads_in. apply C1.
        * destruct (aborted st) eqn:Ea; [|discriminate]. injection H as <-.
          destruct (abort_cause _ _ _ _ _ _ _ H5 Ea) as (i & c & C1 & C2).
          pose proof (reads_in_range _ _ _ _ _ _ _ _ _ H5 C1) as Hi. simpl in Hi. assert (i = 0) as -> by lia.
          eapply (R_abort fs _ _ cfg c (printed st)); simpl; eauto using no_check_more, loaded_more.
          -- apply in_more, threads_in. exact C1.
          -- rewrite H1. reflexivity.
          -- apply (unchanged_more fs ops Collected s); auto.
    - (* result *)
      destruct r as [v|e].
      + destruct (work_text _ _ _ _ _ _ H5) as (L & src & -> & Hs). rewrite format_source_fresh in Hs.
        rewrite L in H6. apply Permutation_sym, Permutation_nil in H6. subst pr. simpl in H1.
        unfold cli_step in H. rewrite H0 in H.
        destruct (a_check a) eqn:Ek.
        * destruct o as [r|x| |r|b|k| | | |p c]; try discriminate.
          destruct (may_read (c_fs s) path r) eqn:Em; [|discriminate].
          assert (Q : forall r', In (Check r') (ops ++ [Check r]) <-> r' = r).
          { intro r'. rewrite in_app_iff. simpl. split; [intros [E|[E|[]]]; [destruct (H3 _ E)|congruence]|intros ->; auto]. }
          assert (Rn : ran (ops ++ [Check r]) cfg (inl src)) by (apply ran_more; auto).
          destruct r as [x|e].
          -- destruct (ustr_eqb x v) eqn:Ex; injection H as <-.
             ++ apply ustr_eqb_eq in Ex as ->. eapply R_checked; eauto.
                ** apply (unchanged_more fs ops (Check (inl v)) s); auto.
                ** left. simpl. rewrite H1. auto.
             ++ eapply R_checked; eauto.
                ** apply (unchanged_more fs ops (Check (inl x)) s); auto.
                ** right. simpl. split; [|auto]. intro E. injection E as ->. rewrite ustr_eqb_refl in Ex. discriminate.
          -- injection H as <-. eapply R_checked; eauto.
             ++ apply (unchanged_more fs ops (Check (inr e)) s); auto.
             ++ right. simpl. split; [discriminate|auto].
        * destruct (a_write a) eqn:Ew.
          -- destruct o as [r|x| |r|[]|k| | | |p c]; try discriminate; injection H as <-.
             ++ eapply (R_writing fs _ _ cfg src v [] v); simpl; eauto using ran_more. split.
                ** intros q Hq. simpl. rewrite upd_other, outside_more by (auto; reflexivity). apply H2.
                ** intros _. simpl. apply upd_same.
             ++ eapply R_no_create; simpl; eauto using ran_more.
                ** apply in_or_app; simpl; auto.
                ** apply (unchanged_more fs ops (Create false) s); auto.
          -- destruct o as [r|x| |r|b|k| | | |p c]; try discriminate; injection H as <-.
             eapply (R_printed fs _ _ cfg src v []); simpl; eauto using ran_more.
             ++ rewrite H1. reflexivity.
             ++ apply (unchanged_more fs ops Print s); auto.
      + destruct o as [r|x| |r|b|k| | | |p c']; simpl in H; rewrite H0 in H; try discriminate. injection H as <-.
        eapply R_failed; simpl; eauto using ran_more, no_check_more. apply (unchanged_more fs ops Finish s); auto.
    - (* writing *)
      destruct o as [r|x| |r|b|k| | | |p c]; simpl in H; rewrite H0 in H; try (destruct rest; discriminate).
      + destruct (Nat.ltb_spec k (List.length rest)) as [Hk|Hk]; [|destruct rest; discriminate].
        assert (E : s' = {| c_fs := upd (c_fs s) path
                      (Some (match c_fs s path with Some c => c | None => [] end ++ firstn (S k) rest)%list);
                      c_out := c_out s; c_pc := At_write (skipn (S k) rest) 0 [] |}).
        { destruct rest; injection H as <-; reflexivity. }
        subst s'. destruct H7 as [W1 W2].
        eapply (R_writing fs _ _ cfg src v (done ++ firstn (S k) rest) (skipn (S k) rest)); cbn [c_pc c_out c_fs]; eauto using ran_more.
        * rewrite <- app_assoc. rewrite (firstn_skipn (S k) rest). assumption.
        * split; cbn [c_fs].
          -- intros q Hq. rewrite upd_other, outside_more by (auto; reflexivity). apply W1. exact Hq.
          -- intro Ht. rewrite upd_same. rewrite W2 by (eapply untouched_less; exact Ht). reflexivity.
      + assert (E : exit_err s = Some s') by (destruct rest; exact H). injection E as <-.
        eapply R_no_write; simpl; eauto using ran_more.
        * apply in_or_app; simpl; auto.
        * apply (written_more fs ops WriteFails s); auto.
      + destruct rest as [|]; [|discriminate]. injection H as <-. rewrite app_nil_r in H6. subst done.
        eapply (R_wrote fs _ _ cfg src v []); simpl; eauto using ran_more.
        * rewrite H1. reflexivity.
        * apply (written_more fs ops Finish s); auto.
    - (* wrote *)
      destruct H0 as [[Hp ->]|[Hp _]]; [|contradiction].
      destruct o as [r|x| |r|b|k| | | |p c]; simpl in H; rewrite Hp in H; try discriminate. injection H as <-.
      eapply (R_wrote fs _ _ cfg src v tail); simpl; eauto using ran_more.
      + rewrite H3. reflexivity.
      + apply (written_more fs ops Finish s); auto.
    - (* printed *)
      destruct H0 as [[Hp ->]|[Hp _]]; [|contradiction].
      destruct o as [r|x| |r|b|k| | | |p c]; simpl in H; rewrite Hp in H; try discriminate. injection H as <-.
      eapply (R_printed fs _ _ cfg src v tail); simpl; eauto using ran_more.
      + rewrite H3. reflexivity.
      + apply (unchanged_more fs ops Finish s); auto.
    - contradiction.
    - contradiction.
    - contradiction.
    - destruct H5 as [(_ & Hp & _)|(_ & Hp & _)]; contradiction.
    - contradiction.
    - contradiction.
  Qed.

  Lemma reachable fs ops : forall s, run (cli_init fs) ops = Some s -> reach fs ops s.
  Proof.
    induction ops as [|o ops IH] using rev_ind; intros s H.
    - injection H as <-. apply R_start; try reflexivity; try (intros q; reflexivity). intros r [].
    - rewrite run_app in H. destruct (run (cli_init fs) ops) as [s0|] eqn:E; [|discriminate].
      simpl in H. destruct (step s0 o) as [s1|] eqn:Es; [|discriminate]. injection H as <-.
      eapply reach_step; eauto.
  Qed.
End Proofs.
