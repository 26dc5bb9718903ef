(* ScheduleProofs2.v: results of many files, in the terms of SpecSchedule.v. *)
From Verif Require Import Base DocProofs Cst Comments Term New Formatter Schedule ScheduleProofs Cli SpecCli CliProofs CliProofs2 SpecSchedule.
From Coq Require Import Lia Permutation.
Local Open Scope string_scope.

Section Proofs.
  Variables (ts : ustr -> node) (checked : bool) (stack : nat) (cfg : config).
  Notation schedule := (schedule ts checked stack cfg).
  Notation work := (work ts checked stack cfg).
  Notation gives := (gives ts checked stack cfg).
  Notation too_deep := (too_deep ts checked stack cfg).
  Notation step := (Schedule.step ts checked stack cfg).

  Lemma work_gives c r : snd (work c) = Ok r <-> gives c r.
  Proof.
    destruct c as [src|e].
    - rewrite work_format. split.
      + destruct (snd (format_source ts checked stack cfg src)) as [v|y|] eqn:E; intro H; try discriminate; injection H as <-.
        * apply gives_text. exact E.
        * eapply gives_failure. exact E.
      + intro H. inversion H as [s v F|s y F|]; subst; unfold formats in *; rewrite F; reflexivity.
    - simpl. split; intro H; [injection H as <-; constructor|inversion H; reflexivity].
  Qed.
  Lemma work_deep c : snd (work c) = Overflow <-> too_deep c.
  Proof.
    unfold SpecSchedule.too_deep. destruct c as [src|e].
    - rewrite work_format. split.
      + intro H. exists src. split; [reflexivity|]. destruct (snd (format_source _ _ _ _ _)); congruence.
      + intros (s & E & H). injection E as <-. rewrite H. reflexivity.
    - simpl. split; [discriminate|intros (s & E & _); discriminate].
  Qed.
  Lemma results files ops st : schedule (init files) ops = Some st -> returned st = true ->
    exists cs rs, List.length cs = List.length files /\
      (forall i c, nth_error cs i = Some c <-> In (Read i c) ops) /\
      Forall2 gives cs rs /\ Permutation (got st) rs.
  Proof.
    intros H Hr. destruct (returned_results _ _ _ _ _ _ _ H Hr) as (cs & L & C & P & _).
    assert (K : exists rs, map Ok rs = map (fun c => snd (work c)) cs).
    { assert (K : Forall (fun x => exists r, x = Ok r) (map (fun c => snd (work c)) cs)).
      { rewrite <- P. apply Forall_forall. intros x Hx. apply in_map_iff in Hx as (r & <- & _). eauto. }
      clear - K. induction cs as [|c cs IH]; [exists []; reflexivity|]. cbn [map] in K. inversion K as [|? ? (r & E) K2]; subst.
      destruct (IH K2) as (rs & Ers). exists (r :: rs). cbn [map]. rewrite E, Ers. reflexivity. }
    destruct K as (rs & Ers). exists cs, rs. split; [exact L|]. split; [exact C|]. split.
    - clear - Ers. revert rs Ers. induction cs as [|c cs IH]; intros [|r rs] E; try discriminate; constructor.
      + apply work_gives. injection E. auto.
      + apply IH. injection E. auto.
    - rewrite <- Ers in P. rewrite <- (oks_map (got st)), <- (oks_map rs). apply oks_perm. exact P.
  Qed.
  Lemma one_result f ops st : schedule (init [f]) ops = Some st -> returned st = true ->
    exists c r, In (Read 0 c) ops /\ gives c r /\ got st = [r].
  Proof.
    intros H Hr. destruct (one_file _ _ _ _ _ _ _ H Hr) as (c & r & C & W & G & _). exists c, r.
    split; [apply C; auto|]. split; [apply work_gives; exact W|exact G].
  Qed.
  Lemma orders files (reads : nat -> reading) (rs : nat -> result) (idx : list nat) :
    Permutation idx (seq 0 (List.length files)) ->
    (forall i, i < List.length files -> gives (reads i) (rs i)) ->
    exists ops st, schedule (init files) ops = Some st /\ returned st = true /\
      (forall i c, In (Read i c) ops -> c = reads i) /\ got st = map rs idx.
  Proof. intros Hp Hr. apply any_order; [exact Hp|]. intros i Hi. apply work_gives. auto. Qed.
  Lemma isolated files files' ops ops' st st' j :
    schedule (init files) ops = Some st -> returned st = true ->
    schedule (init files') ops' = Some st' -> returned st' = true ->
    List.length files = List.length files' -> j < List.length files ->
    (forall i c, i <> j -> (In (Read i c) ops <-> In (Read i c) ops')) ->
    exists c c' r r' rest,
      In (Read j c) ops /\ gives c r /\ Permutation (got st) (r :: rest) /\
      In (Read j c') ops' /\ gives c' r' /\ Permutation (got st') (r' :: rest).
  Proof.
    intros H1 R1 H2 R2 HL Hj Hs.
    destruct (isolation _ _ _ _ _ _ _ _ _ _ _ H1 R1 H2 R2 HL Hj Hs) as (c & c' & r & r' & rest & A & B & C & D & E & F).
    exists c, c', r, r', rest. repeat split; auto; apply work_gives; auto.
  Qed.
  Lemma deep_spoils files ops st i c :
    schedule (init files) ops = Some st -> In (Read i c) ops -> too_deep c -> returned st = false.
  Proof. intros H Hi Hd. eapply overflow_spoils; eauto. apply work_deep. exact Hd. Qed.
  Lemma only_deep_aborts files ops st : schedule (init files) ops = Some st -> aborted st = true ->
    exists i c, In (Read i c) ops /\ too_deep c.
  Proof. intros H Ha. destruct (abort_cause _ _ _ _ _ _ _ H Ha) as (i & c & A & B). exists i, c. split; [exact A|apply work_deep; exact B]. Qed.
  Lemma goes_on files ops st : schedule (init files) ops = Some st ->
    List.length ops <= 6 * List.length files + 2 /\
    (returned st = true \/ aborted st = true \/ exists o st', step st o = Some st').
  Proof.
    intro H. split; [eapply schedules_are_short; exact H|].
    destruct (returned st) eqn:Er; [auto|]. destruct (aborted st) eqn:Ea; [auto|]. right; right.
    destruct (progress ts checked stack cfg st (inl []) Er Ea) as (o & st' & E & _). eauto.
  Qed.
End Proofs.
