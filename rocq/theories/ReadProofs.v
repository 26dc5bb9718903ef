(* ReadProofs.v: consequences of the pass over the constructors (NewProofs.v):
   reading terminates within a stack proportional to the height of the tree, and
   a larger stack never changes a result. *)
From Verif Require Import Base Doc DocBuilder SpecDoc Cst Comments SpecTree SpecComments SpecRead Term New
  Formatter DocProofs CollectProofs CollectProofs2 TermProofs TermProofs2 FormatProofs NewProofs.
From Coq Require Import Lia.
Open Scope res_scope.
Local Open Scope string_scope.

(* ------------------------------------------------------------ positions of a tree *)

Inductive pos (root : node) : loc -> Prop :=
| Pos_root : pos root (root_loc root)
| Pos_kid l c : pos root l -> In c (kids l) -> pos root c.
Inductive cpos (root : node) : loc -> Prop :=
| Cpos_root : cpos root (root_loc root)
| Cpos_kid l c : cpos root l -> In c (kids l) -> code (l_node c) = true -> cpos root c.

Lemma all_nodes_self n : In n (all_nodes n).
Proof. destruct n. left. reflexivity. Qed.
Lemma all_nodes_child root n c : In n (all_nodes root) -> In c (children n) -> In c (all_nodes root).
Proof.
  revert n c. induction root as [i cs IH] using node_nested_ind. intros n c Hn Hc.
  simpl in Hn. destruct Hn as [<-|Hn].
  - right. apply in_flat_map. exists c. split; [exact Hc|apply all_nodes_self].
  - right. apply in_flat_map in Hn. destruct Hn as (x & Hx & Hn). apply in_flat_map. exists x. split; [exact Hx|].
    rewrite Forall_forall in IH. eapply IH; eauto.
Qed.
Lemma pos_node root l : pos root l -> In (l_node l) (all_nodes root).
Proof.
  induction 1 as [|l c Hl IH Hc]; [apply all_nodes_self|].
  eapply all_nodes_child; [exact IH|]. apply kids_child. exact Hc.
Qed.
Lemma cpos_pos root l : cpos root l -> pos root l.
Proof. induction 1; [constructor|econstructor; eauto]. Qed.
Lemma cpos_code root l : cpos root l -> code_node root (l_node l).
Proof.
  induction 1 as [|l c Hl IH Hc He]; [constructor|]. econstructor; [exact IH|].
  unfold code_kids. apply filter_In. split; [apply kids_child; exact Hc|exact He].
Qed.

(* ------------------------------------------------------------ the general statement *)

Section All.
  Variable cm : cmap.
  Variable checked : bool.
  Variable V : loc -> Prop.
  Variable T : ustr -> Prop.
  Variable has : N -> Prop.
  Variable okp : string -> Prop.
  Hypothesis okp_other : forall y, String.eqb y lookup_failure = false -> okp y.
  Hypothesis V_kid : forall l c, V l -> In c (kids l) -> eligible l c -> V c.
  Hypothesis V_filter : forall l c, V l -> In c (kids l) -> kind_in (kind l) filter_parents = true ->
    is_named c = true -> is_extra c = false -> kind_in (kind c) filter_kinds = true.
  Hypothesis V_id : forall l, V l -> has (n_id (l_node l)).
  Hypothesis V_punct : forall l b i, V l -> punct_from l = Some (Punct b i) -> has i.
  Hypothesis V_bucket : forall l, V l -> spec okp (fun _ => True) (get_comment_bucket cm (n_id (l_node l))).
  Hypothesis T_fixed : forall s, In s (map U fixed_pieces) -> T s.
  Hypothesis T_self : forall l, V l -> T (value l).
  Hypothesis T_lower : forall l, V l -> T (to_lowercase (value l)).
  Hypothesis T_upper : forall l, V l -> T (to_uppercase (value l)).
  Hypothesis T_kid : forall l c, V l -> In c (kids l) -> T (value c).
  Hypothesis T_quoted : forall l, V l -> T (U "'" ++ value l ++ U "'")%list.
  Hypothesis T_spaced : forall l, V l -> T (c_sp :: value l ++ [c_sp])%list.
  Hypothesis T_date : forall l l', V l -> V l' -> T (to_uppercase (value l) ++ U ":" ++ value l')%list.

  Lemma new_frame fuel : forall s l, V l -> pre_ok V s l -> weight s l < fuel ->
    spec okp (okd T has) (new cm checked fuel s l).
  Proof.
    induction fuel as [|k IH]; intros s l Vl Pl Hw; [lia|]. cbn [new].
    eapply new_step_spec; try eassumption. intros s' c Vc Pc Hc. apply IH; auto. lia.
  Qed.
End All.

(* ------------------------------------------------------------ termination *)

Lemma source_piece_of root l : pos root l -> source_piece root (value l).
Proof. intro H. apply SP_text. apply pos_node. exact H. Qed.

Section Loose.
  Variable root : node.
  Hypothesis HF : filters_known root.
  Lemma pos_filter l c : pos root l -> In c (kids l) -> kind_in (kind l) filter_parents = true ->
    is_named c = true -> is_extra c = false -> kind_in (kind c) filter_kinds = true.
  Proof.
    intros Hl Hc Hk Hn He. eapply HF; [apply pos_node; exact Hl|apply kids_child; exact Hc|exact Hk|exact Hn|exact He].
  Qed.
  Lemma new_loose cm checked fuel : 6 * height root < fuel ->
    spec (fun _ => True) (okd (fun _ => True) (fun _ => True)) (new cm checked fuel Root (root_loc root)).
  Proof.
    intro H. apply (new_frame cm checked (pos root)); auto.
    - intros l c Hl Hc _. econstructor; eauto.
    - apply pos_filter.
    - intros l _. unfold get_comment_bucket, must. destruct (cm_get _ cm); exact I.
    - constructor.
    - exact I.
    - unfold weight, rank. simpl l_node. lia.
  Qed.
End Loose.
Lemma new_terminates root cm checked fuel : filters_known root -> 6 * height root < fuel ->
  new cm checked fuel Root (root_loc root) <> Overflow.
Proof. intros HF H E. pose proof (new_loose root HF cm checked fuel H) as S. rewrite E in S. exact S. Qed.

(* ------------------------------------------------------------ more stack never changes a result *)

Definition le {A} (m m' : res A) : Prop := m = Overflow \/ m = m'.
Lemma le_refl {A} (m : res A) : le m m.
Proof. right. reflexivity. Qed.
Lemma le_bind {A B} (m m' : res A) (f f' : A -> res B) :
  le m m' -> (forall a, le (f a) (f' a)) -> le (rbind m f) (rbind m' f').
Proof.
  intros [->| ->] Hf; [left; reflexivity|]. destruct m' as [a| |]; simpl; [apply Hf|right; reflexivity|right; reflexivity].
Qed.
Lemma le_mapR {A B} (f f' : A -> res B) l : (forall x, le (f x) (f' x)) -> le (mapR f l) (mapR f' l).
Proof.
  intro H. induction l as [|x l IH]; [apply le_refl|].
  change (le (rbind (f x) (fun y => rbind (mapR f l) (fun ys => Ok (y :: ys)%list)))
             (rbind (f' x) (fun y => rbind (mapR f' l) (fun ys => Ok (y :: ys)%list)))).
  apply le_bind; [apply H|]. intro y. apply le_bind; [exact IH|]. intro. apply le_refl.
Qed.
Lemma le_rmap {A B} (f : A -> B) m m' : le m m' -> le (rmap f m) (rmap f m').
Proof. intro H. apply le_bind; [exact H|]. intro. apply le_refl. Qed.

Section Mono.
  Variable cm : cmap.
  Variable checked : bool.
  Variables r r' : sort -> loc -> res dt.
  Hypothesis HR : forall s l, le (r s l) (r' s l).
  Ltac mono :=
    repeat first
      [ apply HR | apply le_refl
      | match goal with
        | |- le (rbind _ _) (rbind _ _) => apply le_bind; [|intro]
        | |- le (mapR _ _) (mapR _ _) => apply le_mapR; intro
        | |- le (rmap _ _) (rmap _ _) => apply le_rmap
        | |- le (wrap_r _) (wrap_r _) => apply le_rmap
        | |- le (by_n _ _ _ _) _ => unfold by_n
        | |- le (by_k _ _ _ _) _ => unfold by_k
        | |- le (fst_c _ _ _) _ => unfold fst_c
        | |- le (opt_k _ _ _ _) _ => unfold opt_k
        | |- le (opt_n _ _ _ _) _ => unfold opt_n
        | |- le (all_k _ _ _ _) _ => unfold all_k
        | |- le (all1_k _ _ _ _) _ => unfold all1_k
        | |- le (all1_n _ _ _ _) _ => unfold all1_n
        | |- le (all_c _ _ _) _ => unfold all_c
        | |- le (body_member _ _ _ _ _) _ => unfold body_member
        | |- le (get_comparsion _ _) _ => unfold get_comparsion
        | |- le (group_by_item _ _) _ => unfold group_by_item
        | |- le (if ?b then _ else _) _ => destruct b
        | |- le (match ?x with _ => _ end) _ => destruct x
        end ].
  Lemma new_step_mono s l : le (new_step cm checked r s l) (new_step cm checked r' s l).
  Proof.
    destruct s; cbn [new_step];
    match goal with |- le ?a _ => 
      let h := (let rec hd t := match t with ?f _ => hd f | _ => t end in hd a) in unfold h end;
    mono.
  Qed.
End Mono.
Lemma new_mono cm checked k : forall s l, le (new cm checked k s l) (new cm checked (S k) s l).
Proof.
  induction k as [|k IH]; intros s l; [left; reflexivity|].
  change (le (new_step cm checked (new cm checked k) s l) (new_step cm checked (new cm checked (S k)) s l)).
  apply new_step_mono. exact IH.
Qed.
Lemma new_more cm checked k k' s l : k <= k' -> le (new cm checked k s l) (new cm checked k' s l).
Proof.
  induction 1 as [|k' H IH]; [apply le_refl|]. destruct IH as [->|E]; [left; reflexivity|].
  rewrite E. apply new_mono.
Qed.
