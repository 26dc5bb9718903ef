(* ScheduleProofs.v: every schedule of the worker threads. *)
From Verif Require Import Base Cst Comments Term New Formatter Schedule.
From Coq Require Import Lia Permutation.
Local Open Scope string_scope.

Section Proofs.
  Variables (ts : ustr -> node) (checked : bool) (stack : nat) (cfg : config).
  Notation work := (work ts checked stack cfg).
  Notation step := (step ts checked stack cfg).
  Notation schedule := (schedule ts checked stack cfg).

  Lemma schedule_app st a b : schedule st (a ++ b) = match schedule st a with Some st' => schedule st' b | None => None end.
  Proof. revert st. induction a as [|o a IH]; intro st; [reflexivity|]. simpl. destruct (step st o); [apply IH|reflexivity]. Qed.

  Lemma set_worker_split a w w' b : set_worker (List.length a) w' (a ++ w :: b) = (a ++ w' :: b)%list.
  Proof. induction a as [|x a IH]; [reflexivity|]. simpl. rewrite IH. reflexivity. Qed.

  (* A worker with what it read. *)
  Definition ghost : Type := (worker * option reading)%type.
  Definition rel (g : ghost) : Prop :=
    match w_phase (fst g) with
    | W_read => snd g = None
    | W_format c => snd g = Some c
    | W_send r => exists c, snd g = Some c /\ snd (work c) = Ok r
    | W_drop | W_end => exists c r, snd g = Some c /\ snd (work c) = Ok r
    end.
  Definition sent (g : ghost) : list result :=
    match w_phase (fst g), snd g with
    | (W_drop | W_end), Some c => match snd (work c) with Ok r => [r] | _ => [] end
    | _, _ => []
    end.
  Definition logged (g : ghost) : list report :=
    match w_phase (fst g), snd g with
    | (W_send _ | W_drop | W_end), Some c => fst (work c)
    | _, _ => []
    end.

  Record inv (files : list ustr) (ops : list op) (st : state) (gs : list ghost) : Prop := {
    i_workers : workers st = map fst gs;
    i_files : (map w_file (workers st) ++ todo st)%list = files;
    i_todo : tx_open st = false -> todo st = [];
    i_rel : Forall rel gs;
    i_reads : forall i c, In (Read i c) ops <-> exists w, nth_error gs i = Some (w, Some c);
    i_sent : Permutation (got st ++ chan st) (flat_map sent gs);
    i_log : aborted st = false -> Permutation (printed st) (flat_map logged gs);
    i_abort : aborted st = true -> exists i c, In (Read i c) ops /\ snd (work c) = Overflow;
    i_return : returned st = true -> tx_open st = false /\ chan st = [] /\ forallb is_end (workers st) = true /\ aborted st = false
  }.

  Lemma inv_init files : inv files [] (init files) [].
  Proof.
    constructor; simpl; auto; try discriminate.
    intros i c. split; [intros []|intros (w & H); destruct i; discriminate].
  Qed.

  Lemma split_ghost (gs : list ghost) i w : nth_error (map fst gs) i = Some w ->
    exists a g b, gs = (a ++ g :: b)%list /\ fst g = w /\ i = List.length a.
  Proof.
    revert i. induction gs as [|g gs IH]; intros i H; [destruct i; discriminate|].
    destruct i as [|i]; simpl in H.
    - injection H as H. exists [], g, gs. auto.
    - destruct (IH i H) as (a & g' & b & -> & H1 & ->). exists (g :: a)%list, g', b. auto.
  Qed.
  Lemma nth_replace {A} (a : list A) x b i : i <> List.length a -> forall y, nth_error (a ++ x :: b) i = nth_error (a ++ y :: b) i.
  Proof.
    revert i. induction a as [|z a IH]; intros [|i] H y; simpl in *; auto; try lia. 
  Qed.
  Lemma nth_here {A} (a : list A) x b : nth_error (a ++ x :: b) (List.length a) = Some x.
  Proof. induction a; auto. Qed.
  Lemma files_replace a (g : ghost) b w' : w_file w' = w_file (fst g) ->
    map w_file (map fst (a ++ (w', snd g) :: b)) = map w_file (map fst (a ++ g :: b)).
  Proof. intro H. rewrite !map_app. simpl. rewrite H. reflexivity. Qed.
  Lemma reads_same a (g : ghost) b w' ops o :
    (forall i c, o <> Read i c) ->
    (forall i c, In (Read i c) ops <-> exists w, nth_error (a ++ g :: b) i = Some (w, Some c)) ->
    forall i c, In (Read i c) (ops ++ [o]) <-> exists w, nth_error (a ++ (w', snd g) :: b) i = Some (w, Some c).
  Proof.
    intros Ho H i c. rewrite in_app_iff. simpl.
    assert (E : In (Read i c) ops \/ o = Read i c \/ False <-> In (Read i c) ops) by (specialize (Ho i c); tauto).
    rewrite E, H. destruct (Nat.eq_dec i (List.length a)) as [->|Hi].
    - rewrite !nth_here. split; intros (w & Hw).
      + injection Hw as ->. exists w'. reflexivity.
      + injection Hw as _ H2. exists (fst g). rewrite <- H2. destruct g; reflexivity.
    - rewrite (nth_replace a g b i Hi (w', snd g)). reflexivity.
  Qed.

  Lemma inv_step files ops st gs o st' :
    inv files ops st gs -> step st o = Some st' -> exists gs', inv files (ops ++ [o]) st' gs'.
  Proof.
    intros [Iw If It Ir Id Is Il Ia Iret] H. unfold Schedule.step in H.
    destruct (returned st) eqn:Er; [discriminate|]. destruct (aborted st) eqn:Eab; [discriminate|]. simpl in H.
    assert (Hno : forall x : op, (forall i c, x <> Read i c) -> forall i c,
                  In (Read i c) (ops ++ [x]) <-> exists w, nth_error gs i = Some (w, Some c)).
    { intros x Hx i c. rewrite in_app_iff, <- Id. simpl. specialize (Hx i c). tauto. }
    destruct o as [| | | |i c|i|i|i].
    - (* Spawn *)
      destruct (todo st) as [|f r] eqn:Et; [discriminate|]. injection H as <-.
      exists (gs ++ [({| w_file := f; w_phase := W_read |}, None)])%list. constructor; simpl.
      + rewrite map_app, Iw. reflexivity.
      + rewrite map_app, <- app_assoc. simpl. exact If.
      + intro E. specialize (It E). discriminate.
      + apply Forall_app. split; [exact Ir|]. repeat constructor.
      + intros i c. rewrite Hno by discriminate. split; intros (w & Hw).
        * exists w. rewrite nth_error_app1; [exact Hw|]. apply nth_error_Some. congruence.
        * destruct (Nat.lt_ge_cases i (List.length gs)) as [Hi|Hi].
          -- rewrite nth_error_app1 in Hw by exact Hi. eauto.
          -- rewrite nth_error_app2 in Hw by exact Hi. destruct (i - _); [discriminate|destruct n; discriminate].
      + rewrite flat_map_app. simpl. rewrite app_nil_r. exact Is.
      + intros _. rewrite flat_map_app. simpl. rewrite app_nil_r. auto.
      + discriminate.
      + discriminate.
    - (* DropTx *)
      destruct (is_nil (todo st)) eqn:En; [|discriminate]. destruct (tx_open st) eqn:Etx; [|discriminate]. simpl in H.
      injection H as <-. assert (todo st = []) as Et by (destruct (todo st); [reflexivity|discriminate]).
      exists gs. constructor; simpl; auto; try discriminate.
      + rewrite Et in If. exact If.
      + apply Hno. discriminate.
    - (* Receive *)
      destruct (tx_open st) eqn:Etx; [discriminate|]. destruct (chan st) as [|r rest] eqn:Ec; [discriminate|].
      injection H as <-. exists gs. constructor; simpl; auto; try discriminate.
      + apply Hno. discriminate.
      + rewrite <- app_assoc. exact Is.
    - (* Return *)
      destruct (tx_open st) eqn:Etx; [discriminate|]. simpl in H.
      destruct (is_nil (chan st)) eqn:En; [|discriminate]. destruct (forallb is_end (workers st)) eqn:Ef; [|discriminate].
      simpl in H. injection H as <-. assert (chan st = []) as Ec by (destruct (chan st); [reflexivity|discriminate]).
      exists gs. constructor; simpl; auto; try discriminate.
      + apply Hno. discriminate.
      + rewrite Ec in Is. exact Is.
    - (* Read *)
      destruct (nth_error (workers st) i) as [w|] eqn:Ew; [|discriminate]. rewrite Iw in Ew.
      destruct (split_ghost _ _ _ Ew) as (a & g & b & -> & <- & ->).
      apply Forall_app in Ir as [Ira Irb]. inversion Irb as [|x y Irg Irb']; subst.
      unfold rel in Irg. destruct (w_phase (fst g)) eqn:Ep; try discriminate. injection H as <-.
      exists (a ++ (with_phase (fst g) (W_format c), Some c) :: b)%list. constructor; simpl; auto; try congruence.
      + rewrite Iw, !map_app. simpl. rewrite <- (map_length fst a) at 1. apply set_worker_split.
      + rewrite Iw, !map_app. simpl. rewrite <- (map_length fst a) at 1. rewrite set_worker_split, ?map_app. reflexivity.
      + apply Forall_app. split; [exact Ira|]. constructor; [reflexivity|exact Irb'].
      + intros i c'. rewrite in_app_iff, Id. simpl. destruct (Nat.eq_dec i (List.length a)) as [->|Hi].
        * rewrite !nth_here. split.
          -- intros [(w & Hw)|[E|[]]].
             ++ destruct g as [g1 g2]. simpl in Irg. subst. congruence.
             ++ injection E as <-. eauto.
          -- intros (w & Hw). injection Hw as _ <-. auto.
        * rewrite (nth_replace a g b i Hi (with_phase (fst g) (W_format c), Some c)). split.
          -- intros [Hw|[E|[]]]; [exact Hw|congruence].
          -- auto.
      + rewrite flat_map_app in *. simpl in *. unfold sent in *. simpl. rewrite Ep in Is. exact Is.
      + intros _. specialize (Il eq_refl). rewrite flat_map_app in *. simpl in *. unfold logged in *. simpl. rewrite Ep in Il. exact Il.
    - (* Format *)
      destruct (nth_error (workers st) i) as [w|] eqn:Ew; [|discriminate]. rewrite Iw in Ew.
      destruct (split_ghost _ _ _ Ew) as (a & g & b & -> & <- & ->).
      apply Forall_app in Ir as [Ira Irb]. inversion Irb as [|x y Irg Irb']; subst.
      pose proof Irg as Irg'. unfold rel in Irg. destruct (w_phase (fst g)) as [|c| | |] eqn:Ep; try discriminate.
      destruct (work c) as [log r] eqn:Ek. injection H as <-.
      assert (Hin : In (Read (List.length a) c) (ops ++ [Format (List.length a)])).
      { apply in_or_app. left. apply Id. exists (fst g). rewrite nth_here, <- Irg. destruct g; reflexivity. }
      destruct r as [r|y|].
      + exists (a ++ (with_phase (fst g) (W_send r), snd g) :: b)%list. constructor; simpl; auto; try discriminate.
        * rewrite Iw, !map_app. simpl. rewrite <- (map_length fst a) at 1. apply set_worker_split.
        * rewrite Iw, !map_app. simpl. rewrite <- (map_length fst a) at 1. rewrite set_worker_split, ?map_app. reflexivity.
        * apply Forall_app. split; [exact Ira|]. constructor; [|exact Irb']. exists c. rewrite Ek. auto.
        * apply reads_same; [discriminate|exact Id].
        * rewrite flat_map_app in *. simpl in *. unfold sent in *. simpl. rewrite Ep in Is. exact Is.
        * intros _. specialize (Il eq_refl). rewrite flat_map_app in *. simpl in *. unfold logged in *. simpl.
          rewrite Ep in Il. rewrite Irg, Ek. simpl in *. rewrite Il. rewrite <- app_assoc.
          apply Permutation_app_head. apply Permutation_app_comm.
      + exfalso. clear -Ek. unfold Schedule.work in Ek. destruct c as [src|e]; [|discriminate].
        destruct (format_one ts checked stack cfg src fresh_thread) as [[? ?] []]; discriminate.
      + exists (a ++ g :: b)%list. constructor; simpl; auto; try discriminate.
        * apply Forall_app. split; [exact Ira|]. constructor; assumption.
        * apply Hno. discriminate.
        * intros _. exists (List.length a), c. split; [exact Hin|]. rewrite Ek. reflexivity.
    - (* Send *)
      destruct (nth_error (workers st) i) as [w|] eqn:Ew; [|discriminate]. rewrite Iw in Ew.
      destruct (split_ghost _ _ _ Ew) as (a & g & b & -> & <- & ->).
      apply Forall_app in Ir as [Ira Irb]. inversion Irb as [|x y Irg Irb']; subst.
      unfold rel in Irg. destruct (w_phase (fst g)) as [|c|r| |] eqn:Ep; try discriminate. injection H as <-.
      destruct Irg as (c & Eg & Ek).
      exists (a ++ (with_phase (fst g) W_drop, snd g) :: b)%list. constructor; simpl; auto; try discriminate.
      + rewrite Iw, !map_app. simpl. rewrite <- (map_length fst a) at 1. apply set_worker_split.
      + rewrite Iw, !map_app. simpl. rewrite <- (map_length fst a) at 1. rewrite set_worker_split, ?map_app. reflexivity.
      + apply Forall_app. split; [exact Ira|]. constructor; [|exact Irb']. exists c, r. auto.
      + apply reads_same; [discriminate|exact Id].
      + rewrite flat_map_app in *. simpl in *. unfold sent in *. simpl. rewrite Ep in Is. rewrite Eg, Ek.
        rewrite app_assoc, Is. simpl. rewrite <- app_assoc. apply Permutation_app_head.
        apply Permutation_sym, Permutation_cons_append.
      + intros _. specialize (Il eq_refl). rewrite flat_map_app in *. simpl in *. unfold logged in *. simpl. rewrite Ep in Il. exact Il.
    - (* Drop *)
      destruct (nth_error (workers st) i) as [w|] eqn:Ew; [|discriminate]. rewrite Iw in Ew.
      destruct (split_ghost _ _ _ Ew) as (a & g & b & -> & <- & ->).
      apply Forall_app in Ir as [Ira Irb]. inversion Irb as [|x y Irg Irb']; subst.
      unfold rel in Irg. destruct (w_phase (fst g)) as [|c|r| |] eqn:Ep; try discriminate. injection H as <-.
      destruct Irg as (c & r & Eg & Ek).
      exists (a ++ (with_phase (fst g) W_end, snd g) :: b)%list. constructor; simpl; auto; try congruence.
      + rewrite Iw, !map_app. simpl. rewrite <- (map_length fst a) at 1. apply set_worker_split.
      + rewrite Iw, !map_app. simpl. rewrite <- (map_length fst a) at 1. rewrite set_worker_split, ?map_app. reflexivity.
      + apply Forall_app. split; [exact Ira|]. constructor; [|exact Irb']. exists c, r. auto.
      + apply reads_same; [discriminate|exact Id].
      + rewrite flat_map_app in *. simpl in *. unfold sent in *. simpl. rewrite Ep in Is. exact Is.
      + intros _. specialize (Il eq_refl). rewrite flat_map_app in *. simpl in *. unfold logged in *. simpl. rewrite Ep in Il. exact Il.
  Qed.

  Lemma inv_reach files ops : forall st, schedule (init files) ops = Some st -> exists gs, inv files ops st gs.
  Proof.
    induction ops as [|o ops IH] using rev_ind; intros st H.
    - injection H as <-. exists []. apply inv_init.
    - rewrite schedule_app in H. destruct (schedule (init files) ops) as [st0|] eqn:E; [|discriminate].
      destruct (IH st0 eq_refl) as (gs & Hg). simpl in H. destruct (step st0 o) as [st1|] eqn:Es; [|discriminate].
      injection H as <-. eapply inv_step; eauto.
  Qed.

  (* ---- the results ---- *)
  Lemma returned_results files ops st :
    schedule (init files) ops = Some st -> returned st = true ->
    exists cs, List.length cs = List.length files /\
      (forall i c, nth_error cs i = Some c <-> In (Read i c) ops) /\
      Permutation (map Ok (got st)) (map (fun c => snd (work c)) cs) /\
      Permutation (printed st) (flat_map (fun c => fst (work c)) cs).
  Proof.
    intros H Hr. destruct (inv_reach _ _ _ H) as (gs & I). destruct I as [Iw If It Ir Id Is Il Ia Iret].
    destruct (Iret Hr) as (Htx & Hc & He & Hab). specialize (It Htx). specialize (Il Hab). rewrite It, app_nil_r in If.
    rewrite Hc, app_nil_r in Is. rewrite Iw in He, If. clear Ia Iret Iw Hr Htx Hc Hab It H.
    assert (K : exists cs, map snd gs = map Some cs /\ flat_map logged gs = flat_map (fun c => fst (work c)) cs /\
                           map Ok (flat_map sent gs) = map (fun c => snd (work c)) cs).
    { clear -Ir He. induction Ir as [|g gs Hg Hgs IH]; [exists []; auto|]. simpl in He.
      apply andb_prop in He as [H1 H2]. destruct (IH H2) as (cs & E1 & E2 & E3).
      unfold is_end in H1. unfold rel in Hg. destruct (w_phase (fst g)) eqn:Ep; try discriminate.
      destruct Hg as (c & r & Eg & Ek). exists (c :: cs)%list. simpl. rewrite E1, E2, Eg. split; [reflexivity|].
      unfold logged at 1, sent at 1. rewrite Ep, Eg, Ek. split; [reflexivity|]. simpl. rewrite E3. reflexivity. }
    destruct K as (cs & E1 & E2 & E3). exists cs.
    assert (L : List.length cs = List.length gs).
    { apply (f_equal (@List.length _)) in E1. rewrite !map_length in E1. auto. }
    split; [rewrite <- If, !map_length; exact L|]. split; [|split].
    - intros i c. rewrite Id. split.
      + intro Hn. assert (Hs : nth_error (map snd gs) i = Some (Some c)) by (rewrite E1; apply map_nth_error; exact Hn).
        destruct (nth_error gs i) as [[w o]|] eqn:Eg.
        * rewrite (map_nth_error snd _ _ Eg) in Hs. simpl in Hs. injection Hs as ->. eauto.
        * apply nth_error_None in Eg. assert (nth_error (map snd gs) i = None) by (apply nth_error_None; rewrite map_length; exact Eg).
          congruence.
      + intros (w & Hw). apply (map_nth_error snd) in Hw. rewrite E1 in Hw. simpl in Hw.
        destruct (nth_error cs i) as [c'|] eqn:Ec.
        * apply (map_nth_error Some) in Ec. congruence.
        * apply nth_error_None in Ec. assert (nth_error (map Some cs) i = None) by (apply nth_error_None; rewrite map_length; exact Ec).
          congruence.
    - rewrite Is, E3. reflexivity.
    - rewrite Il, E2. reflexivity.
  Qed.

  (* ---- the call returns ---- *)
  Definition weight (w : worker) : nat :=
    match w_phase w with W_read => 5 | W_format _ => 4 | W_send _ => 3 | W_drop => 1 | W_end => 0 end.
  Definition left_over (st : state) : nat :=
    if aborted st then 0
    else 6 * List.length (todo st) + (if tx_open st then 1 else 0) + list_sum (map weight (workers st))
         + List.length (chan st) + (if returned st then 0 else 1).
  Lemma weight_replace i w w' l : nth_error l i = Some w ->
    list_sum (map weight (set_worker i w' l)) + weight w = list_sum (map weight l) + weight w'.
  Proof.
    revert i. induction l as [|x l IH]; intros [|i] H; simpl in *; try discriminate.
    - injection H as ->. lia.
    - specialize (IH i H). lia.
  Qed.
  Lemma step_less st o st' : step st o = Some st' -> left_over st' < left_over st.
  Proof.
    unfold Schedule.step. destruct (returned st) eqn:Er; [discriminate|]. destruct (aborted st) eqn:Ea; [discriminate|]. simpl.
    unfold left_over at 2. rewrite Ea, Er.
    destruct o as [| | | |i c|i|i|i]; intro H.
    - destruct (todo st) as [|f r] eqn:Et; [discriminate|]. injection H as <-. unfold left_over. simpl.
      rewrite map_app. unfold list_sum at 1. rewrite fold_right_app. simpl. 
      assert (K : forall l k, fold_right Nat.add k l = list_sum l + k) by (induction l; simpl; intros; [reflexivity|rewrite IHl; lia]).
      rewrite K. simpl. lia.
    - destruct (is_nil (todo st)) eqn:En; [|discriminate]. destruct (tx_open st); [|discriminate]. injection H as <-.
      unfold left_over. simpl. lia.
    - destruct (tx_open st); [discriminate|]. destruct (chan st); [discriminate|]. injection H as <-. unfold left_over. simpl. lia.
    - destruct (tx_open st); [discriminate|]. simpl in H. destruct (chan st); [|discriminate].
      destruct (forallb is_end (workers st)); [|discriminate]. injection H as <-. unfold left_over. simpl. lia.
    - destruct (nth_error (workers st) i) as [w|] eqn:Ew; [|discriminate]. destruct (w_phase w) eqn:Ep; try discriminate.
      injection H as <-. unfold left_over. simpl. rewrite Ea, Er.
      pose proof (weight_replace i w (with_phase w (W_format c)) _ Ew) as K. unfold weight at 2 4 in K. simpl in K. rewrite Ep in K. lia.
    - destruct (nth_error (workers st) i) as [w|] eqn:Ew; [|discriminate]. destruct (w_phase w) as [|c| | |] eqn:Ep; try discriminate.
      destruct (work c) as [log [r|y|]]; injection H as <-; unfold left_over; simpl; [|lia|lia].
      pose proof (weight_replace i w (with_phase w (W_send r)) _ Ew) as K. unfold weight at 2 4 in K. simpl in K. rewrite Ep in K. lia.
    - destruct (nth_error (workers st) i) as [w|] eqn:Ew; [|discriminate]. destruct (w_phase w) as [| |r| |] eqn:Ep; try discriminate.
      injection H as <-. unfold left_over. simpl. rewrite app_length. simpl.
      pose proof (weight_replace i w (with_phase w W_drop) _ Ew) as K. unfold weight at 2 4 in K. simpl in K. rewrite Ep in K. lia.
    - destruct (nth_error (workers st) i) as [w|] eqn:Ew; [|discriminate]. destruct (w_phase w) eqn:Ep; try discriminate.
      injection H as <-. unfold left_over. simpl. rewrite Ea, Er.
      pose proof (weight_replace i w (with_phase w W_end) _ Ew) as K. unfold weight at 2 4 in K. simpl in K. rewrite Ep in K. lia.
  Qed.
  Lemma schedule_bound st ops st' : schedule st ops = Some st' -> List.length ops + left_over st' <= left_over st.
  Proof.
    revert st. induction ops as [|o ops IH]; intros st H; simpl in H.
    - injection H as <-. simpl. lia.
    - destruct (step st o) as [st1|] eqn:E; [|discriminate]. apply step_less in E. apply IH in H. simpl. lia.
  Qed.
  Lemma schedules_are_short files ops st : schedule (init files) ops = Some st -> List.length ops <= 6 * List.length files + 2.
  Proof. intro H. apply schedule_bound in H. unfold left_over in H at 2. simpl in H. lia. Qed.

  Lemma not_all_end l : forallb is_end l = false -> exists i w, nth_error l i = Some w /\ w_phase w <> W_end.
  Proof.
    induction l as [|x l IH]; [discriminate|]. simpl. destruct (is_end x) eqn:E.
    - intro H. destruct (IH H) as (i & w & H1 & H2). exists (S i), w. auto.
    - intros _. exists 0, x. split; [reflexivity|]. unfold is_end in E. intro H. rewrite H in E. discriminate.
  Qed.
  Lemma progress st (c : reading) : returned st = false -> aborted st = false ->
    exists o st', step st o = Some st' /\ forall i c', o = Read i c' -> c' = c.
  Proof.
    assert (K : forall o st', step st o = Some st' -> (forall i c', o <> Read i c') ->
      exists o st', step st o = Some st' /\ forall i c', o = Read i c' -> c' = c).
    { intros o st' H Ho. exists o, st'. split; [exact H|]. intros i c' E. destruct (Ho i c' E). }
    intros Hr Ha. assert (Hs : exists o, (exists st', step st o = Some st') /\ forall i c', o = Read i c' -> c' = c).
    { unfold Schedule.step. rewrite Hr, Ha. simpl.
      destruct (todo st) as [|f r] eqn:Et; [|exists Spawn; split; [eauto|discriminate]].
      destruct (tx_open st) eqn:Etx; [exists DropTx; simpl; split; [eauto|discriminate]|].
      destruct (chan st) as [|r rest] eqn:Ec; [|exists Receive; split; [eauto|discriminate]].
      destruct (forallb is_end (workers st)) eqn:Ef; [exists Return; simpl; split; [eauto|discriminate]|].
      apply not_all_end in Ef as (i & w & Hw & Hp). destruct (w_phase w) as [|c'|r| |] eqn:Ep.
      - exists (Read i c). rewrite Hw, Ep. split; [eauto|]. intros i' c' E. congruence.
      - exists (Format i). rewrite Hw, Ep. destruct (work c'). split; [eauto|discriminate].
      - exists (Send i). rewrite Hw, Ep. split; [eauto|discriminate].
      - exists (Drop i). rewrite Hw, Ep. split; [eauto|discriminate].
      - congruence. }
    destruct Hs as (o & (st' & H1) & H2). eauto.
  Qed.
  Lemma abort_cause files ops st : schedule (init files) ops = Some st -> aborted st = true ->
    exists i c, In (Read i c) ops /\ snd (work c) = Overflow.
  Proof. intros H Ha. destruct (inv_reach _ _ _ H) as (gs & I). exact (i_abort _ _ _ _ I Ha). Qed.

  Lemma reads_in_range files ops st i c : schedule (init files) ops = Some st -> In (Read i c) ops -> i < List.length files.
  Proof.
    intros H Hi. destruct (inv_reach _ _ _ H) as (gs & I). pose proof (proj1 (i_reads _ _ _ _ I _ _) Hi) as (w & Hw).
    pose proof (i_files _ _ _ _ I) as Hf. rewrite (i_workers _ _ _ _ I) in Hf. rewrite <- Hf, app_length, !map_length.
    assert (i < List.length gs) by (apply nth_error_Some; congruence). unfold ghost in *. lia.
  Qed.
  Lemma reads_once files ops st i c c' : schedule (init files) ops = Some st -> In (Read i c) ops -> In (Read i c') ops -> c = c'.
  Proof.
    intros H Hi Hi'. destruct (inv_reach _ _ _ H) as (gs & I). pose proof (proj1 (i_reads _ _ _ _ I _ _) Hi) as (w & Hw). pose proof (proj1 (i_reads _ _ _ _ I _ _) Hi') as (w' & Hw').
    congruence.
  Qed.

  (* ---- failures ---- *)
  Lemma overflow_spoils files ops st i c :
    schedule (init files) ops = Some st -> In (Read i c) ops -> snd (work c) = Overflow -> returned st = false.
  Proof.
    intros H Hi Ho. destruct (returned st) eqn:Er; [|reflexivity]. exfalso.
    destruct (returned_results _ _ _ H Er) as (cs & _ & Hc & Hp & _). apply Hc in Hi. apply nth_error_In in Hi.
    apply (in_map (fun c => snd (work c))) in Hi. rewrite Ho in Hi. apply (Permutation_in _ (Permutation_sym Hp)) in Hi.
    apply in_map_iff in Hi as (x & Hx & _). discriminate.
  Qed.

  Lemma same_nth {A} (a b : list A) : (forall i, nth_error a i = nth_error b i) -> a = b.
  Proof.
    revert b. induction a as [|x a IH]; intros [|y b] H; auto; try (specialize (H 0); discriminate).
    pose proof (H 0) as H0. injection H0 as ->. f_equal. apply IH. intro i. exact (H (S i)).
  Qed.
  Definition oks (r : res result) : list result := match r with Ok x => [x] | _ => [] end.
  Lemma oks_perm a b : Permutation a b -> Permutation (flat_map oks a) (flat_map oks b).
  Proof. apply Permutation_flat_map. Qed.
  Lemma oks_map l : flat_map oks (map Ok l) = l.
  Proof. induction l as [|x l IH]; [reflexivity|]. simpl. rewrite IH. reflexivity. Qed.
  Lemma isolation files files' ops ops' st st' j :
    schedule (init files) ops = Some st -> returned st = true ->
    schedule (init files') ops' = Some st' -> returned st' = true ->
    List.length files = List.length files' -> j < List.length files ->
    (forall i c, i <> j -> (In (Read i c) ops <-> In (Read i c) ops')) ->
    exists c c' r r' rest,
      In (Read j c) ops /\ snd (work c) = Ok r /\ Permutation (got st) (r :: rest) /\
      In (Read j c') ops' /\ snd (work c') = Ok r' /\ Permutation (got st') (r' :: rest).
  Proof.
    intros H1 R1 H2 R2 HL Hj Hsame.
    destruct (returned_results _ _ _ H1 R1) as (cs & L1 & C1 & P1 & _).
    destruct (returned_results _ _ _ H2 R2) as (cs' & L2 & C2 & P2 & _).
    assert (Hs : forall i, i <> j -> nth_error cs i = nth_error cs' i).
    { intros i Hi. destruct (nth_error cs i) as [c|] eqn:E.
      - apply C1, (Hsame i c Hi), C2 in E. congruence.
      - destruct (nth_error cs' i) as [c|] eqn:E'; [|reflexivity]. apply C2, (Hsame i c Hi), C1 in E'. congruence. }
    destruct (nth_error cs j) as [c|] eqn:Ec; [|apply nth_error_None in Ec; lia].
    destruct (nth_error cs' j) as [c'|] eqn:Ec'; [|apply nth_error_None in Ec'; lia].
    pose proof (proj1 (C1 j c) Ec) as B1. pose proof (proj1 (C2 j c') Ec') as B2.
    apply nth_error_split in Ec as (a & b & -> & La). apply nth_error_split in Ec' as (a' & b' & -> & La').
    assert (a = a' /\ b = b') as [<- <-].
    { assert (Lb : List.length b = List.length b') by (rewrite !app_length in *; simpl in *; lia).
      assert (forall i, nth_error a i = nth_error a' i).
      { intro i. destruct (Nat.lt_ge_cases i (List.length a)).
        - specialize (Hs i ltac:(lia)). rewrite !nth_error_app1 in Hs by lia. exact Hs.
        - rewrite (proj2 (nth_error_None a i)), (proj2 (nth_error_None a' i)) by lia. reflexivity. }
      assert (forall i, nth_error b i = nth_error b' i).
      { intro i. specialize (Hs (S j + i) ltac:(lia)). rewrite !nth_error_app2 in Hs by lia.
        rewrite La, La' in Hs. replace (S j + i - j) with (S i) in Hs by lia. exact Hs. }
      split; apply same_nth; assumption. }
    rewrite map_app in P1, P2. simpl in P1, P2.
    assert (O1 : exists r, snd (work c) = Ok r).
    { assert (In (snd (work c)) (map Ok (got st))).
      { apply (Permutation_in _ (Permutation_sym P1)). apply in_or_app. simpl; auto. }
      apply in_map_iff in H as (x & <- & _). eauto. }
    assert (O2 : exists r, snd (work c') = Ok r).
    { assert (In (snd (work c')) (map Ok (got st'))).
      { apply (Permutation_in _ (Permutation_sym P2)). apply in_or_app. simpl; auto. }
      apply in_map_iff in H as (x & <- & _). eauto. }
    destruct O1 as (r & O1), O2 as (r' & O2). rewrite O1 in P1. rewrite O2 in P2.
    exists c, c', r, r', (flat_map oks (map (fun c => snd (work c)) a) ++ flat_map oks (map (fun c => snd (work c)) b))%list.
    apply oks_perm in P1, P2. rewrite oks_map, flat_map_app in P1, P2. simpl in P1, P2.
    split; [exact B1|]. split; [exact O1|]. split; [rewrite P1; apply Permutation_sym, Permutation_middle|].
    split; [exact B2|]. split; [exact O2|]. rewrite P2; apply Permutation_sym, Permutation_middle.
  Qed.

  (* ---- every order of the results is possible ---- *)
  Lemma set_same i w l : nth_error (set_worker i w l) i = match nth_error l i with Some _ => Some w | None => None end.
  Proof. revert i. induction l as [|x l IH]; intros [|i]; simpl; auto. Qed.
  Lemma set_other i j w l : i <> j -> nth_error (set_worker i w l) j = nth_error l j.
  Proof. revert i j. induction l as [|x l IH]; intros [|i] [|j] H; simpl; auto; try lia. Qed.
  Lemma set_length i w l : List.length (set_worker i w l) = List.length l.
  Proof. revert i. induction l as [|x l IH]; intros [|i]; simpl; auto. Qed.
  Lemma set_twice i w w' l : set_worker i w (set_worker i w' l) = set_worker i w l.
  Proof. revert i. induction l as [|x l IH]; intros [|i]; simpl; auto. f_equal. apply IH. Qed.

  Definition idle (st : state) : Prop :=
    returned st = false /\ aborted st = false /\ tx_open st = false /\ chan st = [].
  Definition turn (i : nat) (c : reading) : list op := [Read i c; Format i; Send i; Drop i; Receive].
  Lemma take_turn st i c w r : idle st -> nth_error (workers st) i = Some w -> w_phase w = W_read ->
    snd (work c) = Ok r ->
    exists st', schedule st (turn i c) = Some st' /\ idle st' /\ got st' = (got st ++ [r])%list /\
      todo st' = todo st /\ workers st' = set_worker i (with_phase w W_end) (workers st).
  Proof.
    intros (H1 & H2 & H3 & H4) Hw Hp Hr. destruct (work c) as [log r0] eqn:E. simpl in Hr. subst r0.
    destruct st as [td tx ws ch gt rt ab pr]. simpl in *. subst rt ab tx ch.
    unfold turn. cbn [Schedule.schedule]. unfold Schedule.step at 1. simpl orb. cbn iota. cbn [workers]. rewrite Hw, Hp.
    unfold Schedule.step at 1. simpl orb. cbn iota. cbn [workers put_workers]. rewrite set_same, Hw. cbn [w_phase with_phase]. rewrite E.
    unfold Schedule.step at 1. simpl orb. cbn iota. cbn [workers put_workers]. rewrite !set_same, Hw. cbn [w_phase with_phase].
    unfold Schedule.step at 1. simpl orb. cbn iota. cbn [workers put_workers]. rewrite !set_same, Hw. cbn [w_phase with_phase].
    unfold Schedule.step at 1. simpl.
    eexists. split; [reflexivity|]. unfold idle. simpl. repeat split; auto. rewrite !set_twice. reflexivity.
  Qed.
  Lemma take_turns (reads : nat -> reading) (rs : nat -> result) idx : NoDup idx -> forall st,
    idle st -> (forall i, In i idx -> exists w, nth_error (workers st) i = Some w /\ w_phase w = W_read) ->
    (forall i, In i idx -> snd (work (reads i)) = Ok (rs i)) ->
    exists st', schedule st (flat_map (fun i => turn i (reads i)) idx) = Some st' /\ idle st' /\
      got st' = (got st ++ map rs idx)%list /\ todo st' = todo st /\
      List.length (workers st') = List.length (workers st) /\
      (forall i w, nth_error (workers st') i = Some w -> w_phase w = W_end \/
                   (~ In i idx /\ nth_error (workers st) i = Some w)).
  Proof.
    induction 1 as [|i idx Hni Hnd IH]; intros st Hi Hw Hr.
    - exists st. rewrite app_nil_r. split; [reflexivity|]. split; [exact Hi|]. repeat split; auto.
    - destruct (Hw i) as (w & Hw1 & Hw2); [simpl; auto|].
      destruct (take_turn st i (reads i) w (rs i) Hi Hw1 Hw2) as (st1 & S1 & I1 & G1 & T1 & W1); [apply Hr; simpl; auto|].
      destruct (IH st1) as (st2 & S2 & I2 & G2 & T2 & L2 & W2); auto.
      + intros j Hj. rewrite W1, set_other by (intros ->; contradiction). apply Hw. simpl; auto.
      + intros j Hj. apply Hr. simpl; auto.
      + exists st2. cbn [flat_map]. rewrite schedule_app, S1, S2. split; [reflexivity|]. split; [exact I2|].
        rewrite G2, G1, T2, T1, L2, W1, set_length, <- app_assoc. repeat split; auto.
        intros j w' Hj. destruct (W2 j w' Hj) as [E|[H1 H2]]; [auto|]. rewrite W1 in H2.
        destruct (Nat.eq_dec i j) as [<-|Hij].
        * rewrite set_same, Hw1 in H2. injection H2 as <-. auto.
        * rewrite set_other in H2 by exact Hij. right. split; [|exact H2]. intros [E|E]; auto.
  Qed.
  Lemma spawn_all files : forall st, returned st = false -> aborted st = false -> todo st = files ->
    exists st', schedule st (repeat Spawn (List.length files)) = Some st' /\
      returned st' = false /\ aborted st' = false /\ todo st' = [] /\ tx_open st' = tx_open st /\
      chan st' = chan st /\ got st' = got st /\
      workers st' = (workers st ++ map (fun f => {| w_file := f; w_phase := W_read |}) files)%list.
  Proof.
    induction files as [|f files IH]; intros st H1 H2 H3.
    - exists st. simpl. rewrite app_nil_r. repeat split; auto.
    - cbn [List.length repeat Schedule.schedule]. unfold Schedule.step. rewrite H1, H2, H3. simpl orb. cbn iota.
      edestruct IH as (st' & S & E); [| | |]; cycle 3.
      + exists st'. split; [exact S|]. simpl in E. rewrite <- app_assoc in E. exact E.
      + reflexivity.
      + reflexivity.
      + reflexivity.
  Qed.
  Lemma any_order (files : list ustr) (reads : nat -> reading) (rs : nat -> result) (idx : list nat) :
    Permutation idx (seq 0 (List.length files)) ->
    (forall i, i < List.length files -> snd (work (reads i)) = Ok (rs i)) ->
    exists ops st, schedule (init files) ops = Some st /\ returned st = true /\
      (forall i c, In (Read i c) ops -> c = reads i) /\ got st = map rs idx.
  Proof.
    intros Hp Hr.
    assert (Hidx : forall i, In i idx <-> i < List.length files).
    { intro i. split; intro H.
      - apply (Permutation_in _ Hp) in H. apply in_seq in H. lia.
      - apply (Permutation_in _ (Permutation_sym Hp)). apply in_seq. lia. }
    destruct (spawn_all files (init files)) as (st1 & S1 & R1 & A1 & T1 & X1 & C1 & G1 & W1); auto. simpl in *.
    pose (st2 := {| todo := []; tx_open := false; workers := workers st1; chan := chan st1; got := got st1;
                    returned := false; aborted := false; printed := printed st1 |}).
    assert (S2 : schedule st1 [DropTx] = Some st2).
    { simpl. unfold Schedule.step. rewrite R1, A1, T1, X1. reflexivity. }
    destruct (take_turns reads rs idx) with (st := st2) as (st3 & S3 & I3 & G3 & T3 & L3 & W3).
    - eapply Permutation_NoDup; [apply Permutation_sym; exact Hp|]. apply seq_NoDup.
    - unfold idle, st2. simpl. rewrite C1. auto.
    - intros i Hi. apply Hidx in Hi. destruct (nth_error files i) as [f|] eqn:E; [|apply nth_error_None in E; lia].
      exists {| w_file := f; w_phase := W_read |}. unfold st2. simpl. rewrite W1.
      apply (map_nth_error (fun f => {| w_file := f; w_phase := W_read |})) in E. rewrite E. auto.
    - intros i Hi. apply Hr, Hidx, Hi.
    - destruct I3 as (I31 & I32 & I33 & I34).
      assert (E : forallb is_end (workers st3) = true).
      { apply forallb_forall. intros w Hw. apply In_nth_error in Hw as (i & Hi). destruct (W3 i w Hi) as [E|[H1 H2]].
        - unfold is_end. rewrite E. reflexivity.
        - exfalso. apply H1, Hidx. assert (Hlt : i < List.length (workers st2)) by (apply nth_error_Some; congruence).
          unfold st2 in Hlt. simpl in Hlt. rewrite W1, map_length in Hlt. exact Hlt. }
      eexists (repeat Spawn (List.length files) ++ [DropTx] ++ flat_map (fun i => turn i (reads i)) idx ++ [Return])%list, _.
      rewrite schedule_app, S1, schedule_app, S2, schedule_app, S3.
      cbn [Schedule.schedule]. unfold Schedule.step. rewrite I31, I32, I33, I34, E. simpl.
      split; [reflexivity|]. simpl. split; [reflexivity|]. split.
      + intros i c H. apply in_app_or in H. destruct H as [H|H]; [apply repeat_spec in H; discriminate|].
        destruct H as [H|H]; [discriminate|]. apply in_app_or in H. destruct H as [H|[H|[]]]; [|discriminate].
        apply in_flat_map in H as (j & _ & H). unfold turn in H. simpl in H.
        destruct H as [H|[H|[H|[H|[H|[]]]]]]; try discriminate. injection H as <- <-. reflexivity.
      + rewrite G3. unfold st2. simpl. rewrite G1. reflexivity.
  Qed.

  Lemma parse_ok_log src log root : parse ts src = (log, Ok root) -> log = [].
  Proof.
    unfold parse. destruct (n_error (ts src)); [|congruence].
    destruct (parse_report (ts src)) as [l [u|y|]]; discriminate.
  Qed.
  Lemma format_one_ok_log src s0 s1 log x : format_one ts checked stack cfg src s0 = (s1, log, Ok x) -> log = [].
  Proof.
    unfold format_one. destruct (parse ts src) as [log0 [root|y|]] eqn:Ep; try discriminate.
    apply parse_ok_log in Ep as ->. destruct (set_thread_source_code src s0) as [t| |]; try discriminate.
    destruct (collect_comments root) as [m| |]; try discriminate.
    destruct (set_thread_comment_map m t); try discriminate. congruence.
  Qed.
  Lemma work_text c s : snd (work c) = Ok (inl s) -> fst (work c) = [] /\
    exists src, c = inl src /\ snd (format_one ts checked stack cfg src fresh_thread) = Ok s.
  Proof.
    unfold Schedule.work. destruct c as [src|e]; [|discriminate].
    destruct (format_one ts checked stack cfg src fresh_thread) as [[s1 log] [x|y|]] eqn:E; try discriminate.
    apply format_one_ok_log in E as El. simpl. intro H. injection H as ->. split; [exact El|]. exists src. rewrite E. auto.
  Qed.
  Lemma one_file f ops st : schedule (init [f]) ops = Some st -> returned st = true ->
    exists c r, (forall i c', In (Read i c') ops <-> i = 0 /\ c' = c) /\ snd (work c) = Ok r /\ got st = [r] /\
      Permutation (printed st) (fst (work c)).
  Proof.
    intros H Hr. destruct (returned_results _ _ _ H Hr) as (cs & L & C & P & Q).
    destruct cs as [|c [|c' cs]]; try discriminate. cbn [map flat_map] in P, Q.
    apply Permutation_sym in P. apply Permutation_length_1_inv in P.
    destruct (got st) as [|r [|r' g]]; try discriminate.
    injection P as P. exists c, r. split; [|split; [congruence|split; [reflexivity|rewrite app_nil_r in Q; exact Q]]].
    intros i x. rewrite <- C. destruct i as [|i]; simpl.
    - split; [intro E; injection E as <-; auto|intros [_ ->]; reflexivity].
    - split; [destruct i; discriminate|intros [E _]; discriminate].
  Qed.
End Proofs.
