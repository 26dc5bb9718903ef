(* CliProofs2.v: the modes of the command line program, crashes and its end. *)
From Verif Require Import Base DocProofs Cst Comments Term New Formatter Schedule ScheduleProofs Cli SpecCli CliProofs.
From Coq Require Import Lia Permutation Wellfounded.
Local Open Scope string_scope.

Section Proofs.
  Variables (ts : ustr -> node) (checked : bool) (stack : nat) (toml : ustr -> toml_fields + ustr).
  Variable a : args.
  Notation run := (cli_run ts checked stack toml a).
  Notation step := (cli_step ts checked stack toml a).
  Notation work := (work ts checked stack).
  Notation formats := (formats ts checked stack).
  Notation loaded := (loaded toml a).
  Notation path := (a_path a).
  Notation reach := (reach ts checked stack toml a).

  Ltac by_reach H := destruct H as [Pc Out Un Th Nc | cfg st Pc Out Un Nc Ld Sc | cfg c r pr Pc Out Un Nc Rn Wk Pe
    | cfg src v done rest Pc Out Ck Wr Rn Fm Ev Wt | cfg src v more Pc Ck Wr Out Rn Fm Wt | cfg src v more Pc Ck Wr Out Rn Fm Un
    | p r Pc Ac In0 Bad Out Un Nc Th | cfg c pr Pc Ld In0 Wk Out Un Nc | cfg c e pr Pc Rn Wk Out Un Nc
    | cfg src v r Ck Rn Fm Chk Un Pc | cfg src v Pc Ck Wr In0 Rn Fm Out Un | cfg src v done rest Pc Ck Wr In0 Rn Fm Ev Out Wt].

  Lemma work_format cfg src : snd (work cfg (inl src)) =
    match snd (format_source ts checked stack cfg src) with
    | Ok s => Ok (inl s) | Panic _ => Ok (inr (U "Thread panicked")) | Overflow => Overflow end.
  Proof.
    rewrite <- format_source_fresh. unfold Schedule.work.
    destruct (format_one ts checked stack cfg src fresh_thread) as [[? ?] []]; reflexivity.
  Qed.
  Lemma loaded_unique ops cfg cfg' : (forall r r', In (Start r) ops -> In (Start r') ops -> r = r') ->
    loaded ops cfg -> loaded ops cfg' -> cfg = cfg'.
  Proof.
    intro H. unfold SpecCli.loaded. destruct (a_config a); [|congruence].
    intros (c & H1 & E1) (c' & H2 & E2). specialize (H _ _ H1 H2). congruence.
  Qed.

  (* ---- the configuration is read once ---- *)
  Definition not_start (s : cli) : Prop := c_pc s <> At_start.
  Lemma leaves_start s o s' : step s o = Some s' -> own o -> c_pc s' <> At_start.
  Proof.
    intros H Ho. destruct o; simpl in Ho; try tauto; simpl in H; destruct (c_pc s) as [|cfg st|i rs|v i rs|code] eqn:Ep;
      repeat match type of H with
      | (match ?x with _ => _ end) = _ => destruct x eqn:?
      | None = Some _ => discriminate H
      | goto _ _ = Some _ => unfold goto in H
      | exit_err _ = Some _ => unfold exit_err, goto in H
      | exit_ok _ _ _ = Some _ => unfold exit_ok in H
      | Some _ = Some _ => injection H as <-
      end; simpl; try discriminate.
  Qed.
  Lemma stays_started ops : forall s s', run s ops = Some s' -> c_pc s <> At_start ->
    c_pc s' <> At_start /\ forall r, ~ In (Start r) ops.
  Proof.
    induction ops as [|o ops IH]; intros s s' H Hs; simpl in H; [injection H as <-; split; [exact Hs|intros r []]|].
    destruct (step s o) as [s1|] eqn:E; [|discriminate].
    assert (H1 : c_pc s1 <> At_start).
    { destruct o; try (eapply leaves_start; [exact E|exact I]). simpl in E. injection E as <-. exact Hs. }
    destruct (IH _ _ H H1) as [K1 K2]. split; [exact K1|]. intros r [->|Hin]; [|exact (K2 r Hin)].
    simpl in E. destruct (c_pc s) as [|? ?|? [|[]]|[] ? ?|]; try discriminate; try (destruct (a_check a); [|destruct (a_write a)]; discriminate).
    congruence.
  Qed.
  Lemma start_once fs ops s r r' : run (cli_init fs) ops = Some s -> In (Start r) ops -> In (Start r') ops -> r = r'.
  Proof.
    intros H H1 H2. destruct (run_in _ _ _ _ _ _ _ _ _ H H1) as (x & y & s1 & s2 & -> & R1 & E & R2).
    assert (K : c_pc s2 <> At_start) by (eapply leaves_start; [exact E|exact I]).
    destruct (stays_started _ _ _ R2 K) as [_ Ky].
    apply in_app_or in H2 as [H2|[H2|H2]]; [|congruence|destruct (Ky _ H2)].
    destruct (run_in _ _ _ _ _ _ _ _ _ R1 H2) as (x' & y' & s3 & s4 & -> & R3 & E3 & R4).
    assert (K' : c_pc s4 <> At_start) by (eapply leaves_start; [exact E3|exact I]).
    destruct (stays_started _ _ _ R4 K') as [K1 _].
    simpl in E. destruct (c_pc s1) as [|? ?|? [|[]]|[] ? ?|]; try discriminate; try (destruct (a_check a); [|destruct (a_write a)]; discriminate).
    congruence.
  Qed.

  (* ---- C18 ---- *)
  Lemma check_writes_nothing fs ops s : run (cli_init fs) ops = Some s -> a_check a = true -> same (c_fs s) (outside ops fs).
  Proof. intros H Hc. apply reachable in H. by_reach H; try assumption; congruence. Qed.
  Lemma check_exit fs ops s code : run (cli_init fs) ops = Some s -> a_check a = true -> c_pc s = At_exit code ->
    (code = 0%N <-> exists cfg src v, loaded ops cfg /\ source ops (inl src) /\ formats cfg src v /\ In (Check (inl v)) ops).
  Proof.
    intros HR Hc Hp. pose proof (start_once fs ops s) as U. specialize (fun r r' => U r r' HR).
    apply reachable in HR. split.
    - intros ->. by_reach HR; try congruence.
      destruct Pc as [(-> & _ & _)|(_ & E & _)]; [|congruence]. destruct Rn as [L Rd].
      exists cfg, src, v. split; [exact L|]. split; [apply Rd; auto|]. split; [assumption|]. apply Chk. reflexivity.
    - intros (cfg' & src' & v' & L' & S' & F' & C'). by_reach HR; try congruence; try (destruct (Nc _ C')).
      destruct Rn as [L Rd]. rewrite (loaded_unique ops cfg' cfg (fun _ _ => U _ _) L' L) in F'.
      apply Rd in S' as [_ E]. injection E as ->. unfold SpecCli.formats in *. rewrite Fm in F'. injection F' as ->.
      apply Chk in C' as <-. destruct Pc as [(_ & E & _)|(E & _ & _)]; [congruence|contradiction].
  Qed.

  (* ---- calm executions ---- *)
  Lemma outside_calm fs ops : calm a fs ops -> outside ops fs = fs.
  Proof.
    assert (K : forall ops, (forall p c, ~ In (Env p c) ops) -> forall f, outside ops f = f).
    { clear. induction ops as [|o ops IH]; intros H f; [reflexivity|].
      destruct o; try (simpl; apply IH; intros p' c' Hin; apply (H p' c'); simpl; auto).
      exfalso. apply (H p c). simpl; auto. }
    intro H. apply K. intros p c Hin. exact (H _ Hin).
  Qed.
  Lemma calm_less fs x y : calm a fs (x ++ y) -> calm a fs x.
  Proof. intros H o Ho. apply H. apply in_or_app. auto. Qed.
  Lemma may_read_inl fs p c : may_read fs p (inl c) = true -> fs p = Some c.
  Proof. simpl. destruct (fs p) as [c'|]; [|discriminate]. intro H. apply ustr_eqb_eq in H. congruence. Qed.
  Lemma calm_reads fs ops s o : calm a fs ops -> run (cli_init fs) ops = Some s -> In o ops ->
    match o with
    | Start (inl c) => match a_config a with Some p => fs p = Some c | None => True end
    | Thread (Read _ (inl c)) => fs path = Some c
    | Check (inl c) => fs path = Some c
    | _ => True
    end.
  Proof.
    intros Hc H Hin. destruct (run_in _ _ _ _ _ _ _ _ _ H Hin) as (x & y & s1 & s2 & -> & R1 & E & _).
    apply calm_less in Hc. pose proof (outside_calm _ _ Hc) as Ho. apply reachable in R1.
    assert (K : forall p c, may_read (c_fs s1) p (inl c) = true -> same (c_fs s1) (outside x fs) -> fs p = Some c).
    { intros p c Hm Hs. apply may_read_inl in Hm. rewrite Hs, Ho in Hm. exact Hm. }
    destruct o as [[txt|bad]|[| | | |i0 [txt|bad]|i0|i0|i0]| |[txt|bad]|b0|k0| | | |p0 txt]; auto.
    - destruct (a_config a) as [p0|] eqn:Ea; [|exact I].
      unfold cli_step in E. by_reach R1; first [destruct Pc as [(_ & Pc & _)|(_ & Pc & _)]|destruct Pc as [[Pc _]|[Pc _]]|idtac];
        rewrite Pc in E; try discriminate; try (destruct rest; discriminate).
      + rewrite Ea in E. destruct (may_read (c_fs s1) p0 (inl txt)) eqn:Em; [|discriminate]. eapply K; eauto.
      + destruct r; [|discriminate]. destruct (a_check a); [discriminate|]. destruct (a_write a); discriminate.
    - unfold cli_step in E. by_reach R1; first [destruct Pc as [(_ & Pc & _)|(_ & Pc & _)]|destruct Pc as [[Pc _]|[Pc _]]|idtac];
        rewrite Pc in E; try discriminate; try (destruct rest; discriminate).
      + destruct (may_read (c_fs s1) path (inl txt)) eqn:Em; [|discriminate]. eapply K; eauto.
      + destruct r; [|discriminate]. destruct (a_check a); [discriminate|]. destruct (a_write a); discriminate.
    - unfold cli_step in E. by_reach R1; first [destruct Pc as [(_ & Pc & _)|(_ & Pc & _)]|destruct Pc as [[Pc _]|[Pc _]]|idtac];
        rewrite Pc in E; try discriminate; try (destruct rest; discriminate).
      destruct r; [|discriminate]. destruct (a_check a); [|destruct (a_write a); discriminate].
      destruct (may_read (c_fs s1) path (inl txt)) eqn:Em; [|discriminate]. eapply K; eauto.
  Qed.
  Lemma loaded_configured fs ops s cfg : calm a fs ops -> run (cli_init fs) ops = Some s -> loaded ops cfg -> configured toml a fs cfg.
  Proof.
    intros Hc H. unfold SpecCli.loaded, configured. destruct (a_config a) as [p|] eqn:Ea; [|auto].
    intros (c & Hin & Hf). exists c. split; [|exact Hf]. pose proof (calm_reads _ _ _ _ Hc H Hin) as K.
    simpl in K. rewrite Ea in K. exact K.
  Qed.
  Lemma configured_unique fs cfg cfg' : configured toml a fs cfg -> configured toml a fs cfg' -> cfg = cfg'.
  Proof.
    unfold configured. destruct (a_config a); [|congruence]. intros (c & E & F) (c' & E' & F'). congruence.
  Qed.

  Lemma calm_exit fs ops s code : calm a fs ops -> run (cli_init fs) ops = Some s -> c_pc s = At_exit code ->
    (code = 0%N <-> exists cfg src v, configured toml a fs cfg /\ fs path = Some src /\ formats cfg src v /\
                      (a_check a = true -> v = src)).
  Proof.
    intros Hc HR Hp. pose proof (fun cfg => loaded_configured fs ops s cfg Hc HR) as LC.
    pose proof (fun o => calm_reads fs ops s o Hc HR) as CR. apply reachable in HR. split.
    - intros ->. by_reach HR; try congruence.
      + destruct Rn as [L Rd]. exists cfg, src, v. split; [auto|]. split; [|split; [assumption|congruence]].
        apply (CR (Thread (Read 0 (inl src)))). apply Rd. auto.
      + destruct Rn as [L Rd]. exists cfg, src, v. split; [auto|]. split; [|split; [assumption|congruence]].
        apply (CR (Thread (Read 0 (inl src)))). apply Rd. auto.
      + destruct Pc as [(-> & _ & _)|(_ & E & _)]; [|congruence]. destruct Rn as [L Rd].
        exists cfg, src, v. split; [auto|].
        assert (S1 : fs path = Some src) by (apply (CR (Thread (Read 0 (inl src)))), Rd; auto).
        split; [exact S1|]. split; [assumption|]. intros _.
        assert (S2 : fs path = Some v) by (apply (CR (Check (inl v))), Chk; reflexivity). congruence.
    - intros (cfg' & src' & v' & L' & S' & F' & C').
      assert (SRC : forall cfg c, ran toml a ops cfg c -> cfg = cfg' /\ c = inl src').
      { intros cfg c [L Rd]. split; [exact (configured_unique _ _ _ (LC _ L) L')|].
        assert (Hin : In (Thread (Read 0 c)) ops) by (apply Rd; auto).
        destruct c as [x|e]; [pose proof (CR _ Hin) as K; simpl in K; congruence|].
        pose proof (Hc _ Hin) as K. simpl in K. congruence. }
      by_reach HR; try congruence.
      + destruct Pc as [[E _]|[E _]]; congruence.
      + destruct Pc as [[E _]|[E _]]; congruence.
      + exfalso. unfold configured in L'. rewrite Ac in L'. destruct L' as (c & E & F). destruct Bad as (e & Hf).
        destruct r as [x|e']; [pose proof (CR _ In0) as K; simpl in K; rewrite Ac in K; congruence|].
        pose proof (Hc _ In0) as K. simpl in K. rewrite Ac in K. congruence.
      + exfalso. assert (cfg = cfg') as -> by exact (configured_unique _ _ _ (LC _ Ld) L').
        destruct c as [x|e]; [|pose proof (Hc _ In0) as K; simpl in K; congruence].
        pose proof (CR _ In0) as K. simpl in K. assert (x = src') as -> by congruence.
        rewrite work_format in Wk. unfold SpecCli.formats in F'. rewrite F' in Wk. discriminate.
      + exfalso. destruct (SRC _ _ Rn) as [-> ->]. rewrite work_format in Wk. unfold SpecCli.formats in F'. rewrite F' in Wk. discriminate.
      + destruct (SRC _ _ Rn) as [-> E]. injection E as ->. unfold SpecCli.formats in F', Fm. rewrite F' in Fm. injection Fm as <-.
        specialize (C' Ck). subst v'. destruct Pc as [(_ & E & _)|(E & _ & _)]; [congruence|]. exfalso. apply E.
        assert (Hin : In (Check r) ops) by (apply Chk; reflexivity).
        destruct r as [x|e]; [pose proof (CR _ Hin) as K; simpl in K; congruence|].
        pose proof (Hc _ Hin) as K. simpl in K. congruence.
      + destruct (Hc _ In0).
      + destruct (Hc _ In0).
  Qed.

  (* ---- C19 ---- *)
  Lemma write_stores fs ops s : run (cli_init fs) ops = Some s -> a_write a = true -> a_check a = false ->
    c_pc s = At_exit 0 -> untouched path ops ->
    exists cfg src v, loaded ops cfg /\ source ops (inl src) /\ formats cfg src v /\
      c_fs s path = Some v /\ same_but path (c_fs s) (outside ops fs).
  Proof.
    intros HR Hw Hc Hp Hu. apply reachable in HR. by_reach HR; try congruence; try (destruct Pc as [(_ & _ & _)|(_ & _ & _)]; congruence).
    destruct Rn as [L Rd], Wt as [W1 W2]. exists cfg, src, v. split; [exact L|]. split; [apply Rd; auto|]. auto.
  Qed.

  (* ---- C20 ---- *)
  Lemma dry_run_writes_nothing fs ops s : run (cli_init fs) ops = Some s -> a_write a = false -> same (c_fs s) (outside ops fs).
  Proof. intros H Hc. apply reachable in H. by_reach H; try assumption; congruence. Qed.
  Lemma dry_run_prints fs ops s : run (cli_init fs) ops = Some s -> a_write a = false -> a_check a = false ->
    c_pc s = At_exit 0 ->
    exists cfg src v, loaded ops cfg /\ source ops (inl src) /\ formats cfg src v /\
      c_out s = (Println v :: (if a_time a then [Elapsed] else []))%list.
  Proof.
    intros HR Hw Hc Hp. apply reachable in HR. by_reach HR; try congruence.
    destruct Pc as [[E _]|[_ ->]]; [congruence|].
    destruct Rn as [L Rd]. exists cfg, src, v. split; [exact L|]. split; [apply Rd; auto|]. auto.
  Qed.

  (* ---- C21 ---- *)
  Lemma failure_exit fs ops s code : run (cli_init fs) ops = Some s -> c_pc s = At_exit code ->
    (forall cfg src v, loaded ops cfg -> source ops (inl src) -> ~ formats cfg src v) ->
    same (c_fs s) (outside ops fs) /\
    (code = 1%N \/ code = 134%N /\ exists cfg src, loaded ops cfg /\ source ops (inl src) /\
                     snd (format_source ts checked stack cfg src) = Overflow).
  Proof.
    intros HR Hp Hf. apply reachable in HR.
    assert (X : forall cfg src v, ran toml a ops cfg (inl src) -> formats cfg src v -> False).
    { intros cfg src v [L Rd] F. apply (Hf cfg src v L); [apply Rd; auto|exact F]. }
    by_reach HR; try congruence; try (exfalso; eapply X; eassumption).
    - split; [assumption|]. left. congruence.
    - split; [assumption|]. right. split; [congruence|]. destruct c as [src|e]; [|discriminate].
      exists cfg, src. split; [assumption|]. split; [assumption|]. rewrite work_format in Wk.
      destruct (snd (format_source _ _ _ _ _)); congruence.
    - split; [assumption|]. left. congruence.
  Qed.
  (* No output text and no success message on a failure. *)
  Lemma failure_output fs ops s code : run (cli_init fs) ops = Some s -> c_pc s = At_exit code -> code <> 0%N ->
    exists pr, c_out s = map Report pr.
  Proof.
    intros HR Hp Hf. apply reachable in HR.
    by_reach HR; try congruence; try (exists pr; assumption); try (exists []; assumption);
      try (destruct Pc as [[Pc _]|[Pc _]]; congruence).
    destruct Pc as [(_ & Pc & _)|(_ & _ & Pc)]; [congruence|]. exists []. assumption.
  Qed.

  (* ---- C22 ---- *)
  Lemma any_moment fs ops s : run (cli_init fs) ops = Some s -> untouched path ops ->
    same_but path (c_fs s) (outside ops fs) /\
    (c_fs s path = fs path \/
     a_write a = true /\ a_check a = false /\
     exists cfg src v rest done, loaded ops cfg /\ source ops (inl src) /\ formats cfg src v /\ v = (done ++ rest)%list /\
       c_fs s path = Some done).
  Proof.
    intros HR Hu. assert (Ho : outside ops fs path = fs path).
    { clear HR. revert fs. induction ops as [|o ops IH]; intro fs; [reflexivity|].
      assert (K : untouched path ops) by (intros c Hin; apply (Hu c); simpl; auto).
      destruct o; simpl; try (apply IH; exact K). rewrite IH by exact K. unfold upd.
      destruct (ustr_eqb path p) eqn:E; [|reflexivity]. apply ustr_eqb_eq in E. subst p. exfalso. apply (Hu c). simpl; auto. }
    assert (Same : same (c_fs s) (outside ops fs) -> same_but path (c_fs s) (outside ops fs) /\ c_fs s path = fs path).
    { intro U. split; [intros q _; apply U|]. rewrite U. exact Ho. }
    apply reachable in HR. by_reach HR; try (destruct (Same Un); auto; fail).
    - destruct Rn as [L Rd], Wt as [W1 W2]. split; [exact W1|]. right. split; [assumption|]. split; [assumption|].
      exists cfg, src, v, rest, done. split; [exact L|]. split; [apply Rd; auto|]. auto.
    - destruct Rn as [L Rd], Wt as [W1 W2]. split; [exact W1|]. right. split; [assumption|]. split; [assumption|].
      exists cfg, src, v, [], v. split; [exact L|]. split; [apply Rd; auto|]. rewrite app_nil_r. auto.
    - destruct Rn as [L Rd], Wt as [W1 W2]. split; [exact W1|]. right. split; [assumption|]. split; [assumption|].
      exists cfg, src, v, rest, done. split; [exact L|]. split; [apply Rd; auto|]. auto.
  Qed.

  (* A crash in the middle of a write leaves any beginning of the text. *)
  Lemma crash_leaves fs src v k : a_config a = None -> a_write a = true -> a_check a = false ->
    fs path = Some src -> formats Config_default src v -> k <= List.length v ->
    exists ops s, calm a fs ops /\ run (cli_init fs) ops = Some s /\ c_fs s path = Some (firstn k v).
  Proof.
    intros Hc Hw Hk Hf Hv Hl.
    assert (Ew : exists log, work Config_default (inl src) = (log, Ok (inl v))).
    { pose proof (work_format Config_default src) as K. unfold SpecCli.formats in Hv. rewrite Hv in K.
      destruct (work Config_default (inl src)) as [log r]. simpl in K. subst r. eauto. }
    destruct Ew as (log & Ew).
    assert (Hm : may_read fs path (inl src) = true) by (simpl; rewrite Hf; apply ustr_eqb_eq; reflexivity).
    set (base := [Start (inl []); Thread Spawn; Thread DropTx; Thread (Read 0 (inl src)); Thread (Format 0); Thread (Send 0);
                  Thread (Drop 0); Thread Receive; Thread Return; Collected; Create true]).
    assert (Hb : exists s, run (cli_init fs) base = Some s /\ c_fs s = upd fs path (Some []) /\ c_pc s = At_write v 0 []).
    { assert (run_cons : forall x o y ops z, step x o = Some y -> run y ops = z -> run x (o :: ops) = z).
      { intros x o y ops z H1 H2. cbn [cli_run]. rewrite H1. exact H2. }
      eexists. split; [|split].
      - unfold base. eapply run_cons; [unfold cli_step; cbn [c_pc cli_init]; rewrite Hc; reflexivity|].
        do 2 (eapply run_cons; [cbn -[Schedule.work may_read]; reflexivity|]).
        eapply run_cons; [cbn -[Schedule.work may_read]; rewrite Hm; reflexivity|].
        eapply run_cons; [cbn -[Schedule.work may_read]; rewrite Ew; reflexivity|].
        do 5 (eapply run_cons; [cbn -[Schedule.work may_read]; reflexivity|]).
        eapply run_cons; [cbn -[Schedule.work may_read]; rewrite Hk, Hw; reflexivity|]. reflexivity.
      - reflexivity.
      - reflexivity. }
    destruct Hb as (s & Hr & Hs & Hp).
    assert (Hcalm : calm a fs base).
    { intros o Ho. simpl in Ho. repeat (destruct Ho as [<-|Ho]); simpl; auto. destruct Ho. }
    assert (Hu : upd fs path (Some []) path = Some []).
    { unfold upd. replace (ustr_eqb path path) with true by (symmetry; apply ustr_eqb_eq; reflexivity). reflexivity. }
    destruct k as [|k].
    - exists base, s. split; [exact Hcalm|]. split; [exact Hr|]. rewrite Hs. exact Hu.
    - exists (base ++ [Write k])%list. eexists. split; [|split].
      + intros o Ho. apply in_app_or in Ho as [Ho|[<-|[]]]; [apply Hcalm; exact Ho|exact I].
      + rewrite run_app, Hr. cbn [cli_run]. unfold cli_step. rewrite Hp, Hs, Hu.
        replace (Nat.ltb k (List.length v)) with true by (symmetry; apply Nat.ltb_lt; lia).
        destruct v; reflexivity.
      + cbn [c_fs]. unfold upd at 1. replace (ustr_eqb path path) with true by (symmetry; apply ustr_eqb_eq; reflexivity). reflexivity.
  Qed.

  (* ---- C50: the program comes to an end ---- *)
  Definition rank (s : cli) : nat * (nat * nat) :=
    match c_pc s with
    | At_start => (4, (0, 0))
    | At_format _ st => (3, (left_over st, 0))
    | At_result _ rs => (2, (2 * List.length rs, 0))
    | At_write v _ rs => (2, (2 * List.length rs + 1, List.length v))
    | At_exit _ => (0, (0, 0))
    end.
  Definition lt3 : nat * (nat * nat) -> nat * (nat * nat) -> Prop :=
    fun x y => fst x < fst y \/ fst x = fst y /\ (fst (snd x) < fst (snd y) \/ fst (snd x) = fst (snd y) /\ snd (snd x) < snd (snd y)).
  Lemma lt3_wf : well_founded lt3.
  Proof.
    intros [x [y z]]. revert y z. induction x as [x IHx] using lt_wf_ind. intro y. induction y as [y IHy] using lt_wf_ind.
    intro z. induction z as [z IHz] using lt_wf_ind. constructor. intros [x' [y' z']] [H|[E [H|[E2 H]]]]; simpl in *; subst; auto.
  Qed.
  Lemma rank_less s o s' : own o -> step s o = Some s' -> lt3 (rank s') (rank s).
  Proof.
    intros Ho H. unfold rank, lt3.
    destruct o as [r|o| |r|b|k| | | |p c]; simpl in Ho; try tauto; clear Ho; unfold cli_step in H;
      destruct (c_pc s) as [|cfg st|i rs|v i rs|code] eqn:Ep; try discriminate;
      repeat match type of H with
      | (match ?x with _ => _ end) = _ => destruct x eqn:?; try discriminate
      | goto _ _ = Some _ => unfold goto in H
      | exit_err _ = Some _ => unfold exit_err, goto in H
      | exit_ok _ _ _ = Some _ => unfold exit_ok in H
      | Some _ = Some _ => injection H as <-
      end; cbn [c_pc fst snd List.length]; try lia.
    - right. split; [reflexivity|]. left. eapply step_less. eassumption.
    - right. split; [reflexivity|]. right. split; [reflexivity|]. apply Nat.ltb_lt in Heqb. rewrite skipn_length. lia.
  Qed.
  Lemma program_ends : well_founded (fun s' s => exists o, own o /\ step s o = Some s').
  Proof.
    apply (wf_incl _ _ (fun s' s => lt3 (rank s') (rank s))).
    - intros s' s (o & Ho & H). exact (rank_less _ _ _ Ho H).
    - apply wf_inverse_image. exact lt3_wf.
  Qed.

  Definition read_of (g : files) (p : ustr) : reading := match g p with Some c => inl c | None => inr [] end.
  Lemma read_of_may g p : may_read g p (read_of g p) = true.
  Proof. unfold read_of, may_read. destruct (g p); [apply ustr_eqb_eq|]; reflexivity. Qed.
  Lemma may_read_same f g p r : same f g -> may_read f p r = may_read g p r.
  Proof. intro H. unfold may_read. rewrite H. reflexivity. Qed.
  Lemma go_on fs ops s g : run (cli_init fs) ops = Some s -> (same (c_fs s) (outside ops fs) -> same g (c_fs s)) ->
    (exists code, c_pc s = At_exit code) \/ exists o s', own o /\ step s o = Some s' /\ calm a g [o].
  Proof.
    intros HR Hg. apply reachable in HR.
    assert (one : forall o s', own o -> step s o = Some s' -> calm a g [o] ->
      (exists code, c_pc s = At_exit code) \/ exists o s', own o /\ step s o = Some s' /\ calm a g [o]) by eauto 6.
    assert (Rd : forall p, same g (c_fs s) -> may_read (c_fs s) p (read_of g p) = true).
    { intros p E. rewrite <- (may_read_same g) by exact E. apply read_of_may. }
    assert (Hin : forall r0 o : cli_op, In o [r0] -> o = r0) by (intros r0 o [E|[]]; auto).
    by_reach HR; eauto.
    - specialize (Hg Un). destruct (a_config a) as [p|] eqn:Ea.
      + assert (E : exists s', step s (Start (read_of g p)) = Some s').
        { unfold cli_step. rewrite Pc, Ea, (Rd p Hg). destruct (Config_from_file _ _); unfold exit_err, goto; eauto. }
        destruct E as (s' & E). refine (one _ s' _ E _); [exact I|]. intros o Ho. apply Hin in Ho as ->.
        unfold read_of. destruct (g p) eqn:Eg; [exact I|]. rewrite Ea. exact Eg.
      + assert (E : exists s', step s (Start (inl [])) = Some s').
        { unfold cli_step. rewrite Pc, Ea. unfold goto; eauto. }
        destruct E as (s' & E). refine (one _ s' _ E _); [exact I|]. intros o Ho. apply Hin in Ho as ->. exact I.
    - specialize (Hg Un). destruct (returned st) eqn:Er.
      { assert (E : exists s', step s Collected = Some s') by (unfold cli_step; rewrite Pc, Er; eauto).
        destruct E as (s' & E). refine (one _ s' _ E _); [exact I|]. intros o Ho. apply Hin in Ho as ->. exact I. }
      destruct (aborted st) eqn:Eb.
      { assert (E : exists s', step s Collected = Some s') by (unfold cli_step; rewrite Pc, Er, Eb; eauto).
        destruct E as (s' & E). refine (one _ s' _ E _); [exact I|]. intros o Ho. apply Hin in Ho as ->. exact I. }
      destruct (progress ts checked stack cfg st (read_of g path) Er Eb) as (o & st' & E & Eo).
      assert (E' : exists s', step s (Thread o) = Some s').
      { unfold cli_step. rewrite Pc, E. destruct o as [| | | |i c| | |]; unfold goto; eauto.
        rewrite (Eo _ _ eq_refl), (Rd path Hg). eauto. }
      destruct E' as (s' & E'). refine (one _ s' _ E' _); [exact I|]. intros o' Ho. apply Hin in Ho as ->.
      destruct o as [| | | |i c| | |]; auto. rewrite (Eo _ _ eq_refl). unfold read_of. destruct (g path) eqn:Eg; auto.
    - specialize (Hg Un). destruct r as [v|e].
      + destruct (a_check a) eqn:Ec; [|destruct (a_write a) eqn:Ew].
        * assert (E : exists s', step s (Check (read_of g path)) = Some s').
          { unfold cli_step. rewrite Pc, Ec, (Rd path Hg). unfold exit_err, exit_ok, goto.
            destruct (read_of g path); eauto. destruct (ustr_eqb _ _); eauto. }
          destruct E as (s' & E). refine (one _ s' _ E _); [exact I|]. intros o Ho. apply Hin in Ho as ->.
          unfold read_of. destruct (g path) eqn:Eg; auto.
        * assert (E : exists s', step s (Create true) = Some s') by (unfold cli_step; rewrite Pc, Ec, Ew; eauto).
          destruct E as (s' & E). refine (one _ s' _ E _); [exact I|]. intros o Ho. apply Hin in Ho as ->. exact I.
        * assert (E : exists s', step s Print = Some s') by (unfold cli_step; rewrite Pc, Ec, Ew; eauto).
          destruct E as (s' & E). refine (one _ s' _ E _); [exact I|]. intros o Ho. apply Hin in Ho as ->. exact I.
      + assert (E : exists s', step s Finish = Some s') by (unfold cli_step; rewrite Pc; unfold exit_err, goto; eauto).
        destruct E as (s' & E). refine (one _ s' _ E _); [exact I|]. intros o Ho. apply Hin in Ho as ->. exact I.
    - destruct rest as [|x rest].
      + assert (E : exists s', step s Finish = Some s') by (unfold cli_step; rewrite Pc; eauto).
        destruct E as (s' & E). refine (one _ s' _ E _); [exact I|]. intros o Ho. apply Hin in Ho as ->. exact I.
      + assert (E : exists s', step s (Write 0) = Some s') by (unfold cli_step; rewrite Pc; simpl; eauto).
        destruct E as (s' & E). refine (one _ s' _ E _); [exact I|]. intros o Ho. apply Hin in Ho as ->. exact I.
    - destruct Pc as [[Pc _]|[Pc _]]; [|eauto].
      assert (E : exists s', step s Finish = Some s') by (unfold cli_step; rewrite Pc; unfold exit_ok; eauto).
      destruct E as (s' & E). refine (one _ s' _ E _); [exact I|]. intros o Ho. apply Hin in Ho as ->. exact I.
    - destruct Pc as [[Pc _]|[Pc _]]; [|eauto].
      assert (E : exists s', step s Finish = Some s') by (unfold cli_step; rewrite Pc; unfold exit_ok; eauto).
      destruct E as (s' & E). refine (one _ s' _ E _); [exact I|]. intros o Ho. apply Hin in Ho as ->. exact I.
    - destruct Pc as [(_ & Pc & _)|(_ & Pc & _)]; eauto.
  Qed.
  Lemma never_stuck fs ops s : run (cli_init fs) ops = Some s -> (forall code, c_pc s <> At_exit code) ->
    exists o s', own o /\ step s o = Some s'.
  Proof.
    intros H Hn. destruct (go_on fs ops s (c_fs s) H) as [(code & E)|(o & s' & H1 & H2 & _)]; eauto.
    - intros _ q. reflexivity.
    - destruct (Hn code E).
  Qed.
  Lemma runs_to_the_end fs ops s : calm a fs ops -> run (cli_init fs) ops = Some s ->
    exists more s' code, calm a fs (ops ++ more) /\ run (cli_init fs) (ops ++ more) = Some s' /\ c_pc s' = At_exit code.
  Proof.
    revert ops. induction s as [s IH] using (well_founded_ind program_ends). intros ops Hc HR.
    destruct (go_on fs ops s fs HR) as [(code & E)|(o & s' & H1 & H2 & H3)].
    - intros E q. rewrite E, (outside_calm _ _ Hc). reflexivity.
    - exists [], s, code. rewrite app_nil_r. auto.
    - destruct (IH s' (ex_intro _ o (conj H1 H2)) (ops ++ [o])%list) as (more & s2 & code & K1 & K2 & K3).
      + intros x Hx. apply in_app_or in Hx as [Hx|Hx]; [apply Hc; exact Hx|apply H3; exact Hx].
      + rewrite run_app, HR. simpl. rewrite H2. reflexivity.
      + exists (o :: more)%list, s2, code. rewrite <- app_assoc in K1, K2. auto.
  Qed.
End Proofs.
