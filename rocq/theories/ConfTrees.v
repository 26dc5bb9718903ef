(* ConfTrees.v: trees given by positions in a source text, and a quicker way to run the
   printer.  Nothing here models afmt: it is used to compare the model with the test files
   of /repo/tests (Conf*.v, generated by /verif/conformance). *)
From Verif Require Import Base Doc DocProofs Cst Comments Term New Formatter.
Open Scope res_scope.
Local Open Scope string_scope.
Local Open Scope list_scope.

(* a word or sign, a node or a comment: kind, number, first and last position, first and
   last row, children *)
Inductive span := Span (named extra : bool) (field : option string) (kind : string) (id s e r q : N) (kids : list span).
Definition A k i s e r q := Span false false None k i s e r q.
Definition B k i s e r q := Span true false None k i s e r q.
Definition C k i s e r q := Span true true None k i s e r q.
Definition in_field_ (x : span) (f : string) : span :=
  match x with Span n x _ k i s e r q kids => Span n x (Some f) k i s e r q kids end.
Notation "x # f" := (in_field_ x f) (at level 30).

(* [src] is the source from position [from] on. *)
Fixpoint grow (from : N) (src : ustr) (x : span) : node :=
  match x with
  | Span n x f k i s e r q kids =>
      let src := skipn (N.to_nat (s - from)) src in
      Node {| i_id := i; i_kind := k; i_named := n; i_extra := x; i_error := false; i_field := f;
              i_srow := r; i_erow := q; i_sbyte := s; i_ebyte := e;
              i_text := firstn (N.to_nat (e - s)) src |} (map (grow s src) kids)
  end.

(* ------------------------------------------------------------ the printer with given fuel *)
Section Quick.
  Variables fuel lots : nat.
  Definition quick_text (t : ustr) (w : N) (s : pstate) : pstate :=
    if ustr_eqb t [c_sp]
    then if match rev' (p_out s) with x :: _ => N.eqb x c_sp | [] => false end then s
         else {| p_chunks := p_chunks s; p_col := p_col s + w; p_out := p_out s ++ t; p_pending := p_pending s |}
    else {| p_chunks := p_chunks s; p_col := p_col s + w; p_out := p_out s ++ t; p_pending := p_pending s |}.
  Lemma quick_text_ok t w s : quick_text t w s = push_text t w s.
  Proof.
    unfold quick_text, push_text, ends_with_char. destruct (ustr_eqb t [c_sp]); [|reflexivity]. cbn [andb].
    unfold rev'. rewrite <- rev_alt. reflexivity.
  Qed.
  Definition quick_chunk (w : N) (c : chunk) (s : pstate) : option pstate :=
    match ch_doc c with
    | Text t tw => Some (quick_text t tw (flush s))
    | Choice x y =>
        let s := flush s in
        if ch_flat c then Some (push_chunks [with_doc c x] s)
        else match fits_loop fuel (fits_init w (p_col s) (p_chunks s) (with_doc c x)) with
             | Some true => Some (push_chunks [with_doc c x] s)
             | Some false => Some (push_chunks [with_doc c y] s)
             | None => None
             end
    | _ => Some (print_chunk w c s)
    end.
  Fixpoint quick_loop (n : nat) (w : N) (s : pstate) : option pstate :=
    match p_chunks s with
    | [] => Some s
    | c :: r =>
        match n with
        | O => None
        | S n => match quick_chunk w c {| p_chunks := r; p_col := p_col s; p_out := p_out s; p_pending := p_pending s |} with
                 | Some s' => quick_loop n w s'
                 | None => None
                 end
        end
    end.
  Lemma fits_loop_agree n : forall m s b c, fits_loop n s = Some b -> fits_loop m s = Some c -> b = c.
  Proof.
    induction n as [|n IH]; intros m s b c H G; [discriminate|]. destruct m as [|m]; [discriminate|].
    cbn [fits_loop] in *. destruct (fits_step s); [congruence|]. eapply IH; eassumption.
  Qed.
  Lemma quick_chunk_ok w c s s' : quick_chunk w c s = Some s' -> print_chunk w c s = s'.
  Proof.
    unfold quick_chunk, print_chunk. destruct (ch_doc c); try (intro H; injection H as <-; rewrite ?quick_text_ok; reflexivity).
    destruct (ch_flat c); [intro H; injection H as <-; reflexivity|].
    destruct (fits_loop fuel _) as [b|] eqn:E; [|discriminate]. intro H.
    destruct (fits_total w (p_col (flush s)) (p_chunks (flush s)) (with_doc c d1)) as (b' & E').
    unfold fits. rewrite E'. unfold fits_opt in E'. rewrite (fits_loop_agree _ _ _ _ _ E' E).
    destruct b; injection H as <-; reflexivity.
  Qed.
  Lemma loops_agree n : forall m w s r t, quick_loop n w s = Some r -> print_loop m w s = Some t -> r = t.
  Proof.
    induction n as [|n IH]; intros m w s r t H G; destruct m as [|m]; cbn [quick_loop print_loop] in *;
      destruct (p_chunks s) as [|c l] eqn:E; try congruence.
    unfold print_step in G. rewrite E in G. destruct (quick_chunk w c _) as [s'|] eqn:Q; [|discriminate].
    rewrite (quick_chunk_ok _ _ _ _ Q) in G. eapply IH; eassumption.
  Qed.
  Definition quick_print (d : doc) (w : N) : option ustr :=
    match quick_loop lots w (print_init d) with
    | Some s => Some (p_out (flush s))
    | None => None
    end.
  Lemma quick_print_ok d w o : quick_print d w = Some o -> pretty_print d w = o.
  Proof.
    unfold quick_print. destruct (quick_loop lots w (print_init d)) as [s|] eqn:Q; [|discriminate]. intro H.
    destruct (pretty_print_total d w) as (o' & E). unfold pretty_print. rewrite E. unfold pretty_print_opt in E.
    destruct (print_loop (dsteps d) w (print_init d)) as [s'|] eqn:P; [|discriminate].
    rewrite (loops_agree _ _ _ _ _ _ Q P) in H. congruence.
  Qed.
  Definition quick_format (root : node) : res (option ustr) :=
    cm <- collect_comments root ;;
    d <- new cm true 400 Root (root_loc root) ;;
    b <- PrettyConfig_new (cfg_indent_size Config_default) ;;
    built <- run cm b d ;;
    let out := quick_print (fst built) (max_width Config_default) in
    _ <- assert_no_missing_comments cm (snd built) ;;
    Ok out.
  Lemma quick_format_ok root o : quick_format root = Ok (Some o) -> format_tree true 400 Config_default root = Ok o.
  Proof.
    unfold quick_format, format_tree. destruct (collect_comments root) as [cm| |]; try discriminate. cbn [rbind].
    destruct (new cm true 400 Root (root_loc root)) as [T| |]; try discriminate. cbn [rbind].
    destruct (PrettyConfig_new _) as [b| |]; try discriminate. cbn [rbind].
    destruct (run cm b T) as [[d w]| |]; try discriminate. cbn [rbind fst snd].
    destruct (assert_no_missing_comments cm w) as [[]| |]; try discriminate. cbn [rbind].
    intro H. injection H as H. f_equal. exact (quick_print_ok _ _ _ H).
  Qed.
End Quick.

(* A test of /repo/tests: an input, its tree, and the text that the test expects. *)
Definition as_expected (src : ustr) (x : span) (out : ustr) : Prop :=
  format_tree true 400 Config_default (grow 0 src x) = Ok out.
Definition run_test (src : ustr) (x : span) (out : ustr) : bool :=
  match quick_format (N.to_nat 4000) (N.to_nat 40000) (grow 0 src x) with
  | Ok (Some o) => ustr_eqb o out
  | _ => false
  end.
Theorem run_test_ok src x out : run_test src x out = true -> as_expected src x out.
Proof.
  unfold run_test, as_expected. destruct (quick_format _ _ _) as [[o|]| |] eqn:E; try discriminate.
  intro H. apply ustr_eqb_eq in H. subst o. exact (quick_format_ok _ _ _ _ E).
Qed.
