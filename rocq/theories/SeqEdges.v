(* SeqEdges.v: what each syntax type prints begins and ends with a visible character
   (with a few exceptions listed below).  Proofs only. *)
From Coq Require Import Lia.
From Verif Require Import Base Doc DocBuilder Cst Comments Term SpecTree New ReadProofs NewProofs
  SpecTokens CollectProofs TokensProofs SpecWords WordsProofs WordsTerm WordsSorts SeqTerm.
Open Scope res_scope.
Local Open Scope string_scope.
Local Open Scope list_scope.

(* ------------------------------------------------------------ what has been printed so far *)

Inductive seen := Nothing | Visible | Blank.   (* the last thing printed, nothing if only blanks *)
Definition lead (s : ustr) : bool := match s with c :: _ => negb (is_ws c) | [] => false end.
Definition last_ (s : ustr) : bool := lead (rev s).
Definition see (q : seen) (p : piece) : option seen :=
  match p with
  | PN _ | PG | PT [] => Some q
  | PT s => match q with
            | Nothing => if lead s then Some (if last_ s then Visible else Blank) else None
            | _ => Some (if last_ s then Visible else Blank)
            end
  | PB | PF | PS | PY => match q with Nothing => None | _ => Some Blank end
  end.
Fixpoint sees (q : seen) (l : list piece) : option seen :=
  match l with [] => Some q | p :: l => match see q p with Some q => sees q l | None => None end end.
Lemma sees_app q a b : sees q (a ++ b) = match sees q a with Some q => sees q b | None => None end.
Proof. revert q. induction a as [|p a IH]; intro q; [reflexivity|]. cbn [app sees]. destruct (see q p); [apply IH|reflexivity]. Qed.

Inductive lev := V | A | F.   (* something visible; something; anything *)
Definition inn (q : seen) (e : lev) : Prop :=
  match e with V => q = Visible | A => q <> Nothing | F => True end.
Definition le (a b : lev) : Prop := match a, b with V, _ => True | A, V => False | A, _ => True | F, F => True | F, _ => False end.
Lemma inn_le q a b : inn q a -> le a b -> inn q b.
Proof. destruct a, b; cbn; try tauto; intros ->; discriminate. Qed.
Lemma le_refl a : le a a.
Proof. destruct a; exact I. Qed.
Lemma le_F a : le a F.
Proof. destruct a; exact I. Qed.
Lemma le_V a : le V a.
Proof. exact I. Qed.
Lemma le_trans a b c : le a b -> le b c -> le a c.
Proof. destruct a, b, c; cbn; tauto. Qed.
Definition join (a b : lev) : lev := match a, b with F, _ | _, F => F | A, _ | _, A => A | V, V => V end.

Definition K (e : lev) (l : list piece) (e' : lev) : Prop := forall q, inn q e -> exists q', sees q l = Some q' /\ inn q' e'.
Definition K1 (e : lev) (x : dt) (e' : lev) : Prop := K e (seq x) e'.
Definition KD (e : lev) (l : list dt) (e' : lev) : Prop := K e (flat_map seq l) e'.

Lemma K_nil e : K e [] e.
Proof. intros q H. exists q. split; [reflexivity|exact H]. Qed.
Lemma K_app e a m c e' : K e a m -> K m c e' -> K e (a ++ c) e'.
Proof.
  intros H1 H2 q L. destruct (H1 q L) as (q1 & E1 & L1). destruct (H2 q1 L1) as (q2 & E2 & L2).
  exists q2. rewrite sees_app, E1. split; assumption.
Qed.
Lemma K_weak e l e' a a' : K e l e' -> le a e -> le e' a' -> K a l a'.
Proof.
  intros H L1 L2 q L. destruct (H q (inn_le _ _ _ L L1)) as (q' & E & L'). exists q'. split; [exact E|].
  exact (inn_le _ _ _ L' L2).
Qed.
Lemma K_any l : K A l A.
Proof.
  induction l as [|p l IH]; [apply K_nil|]. intros q L. destruct (see q p) as [q1|] eqn:E.
  - assert (L1 : inn q1 A). { destruct p as [[|c s]| | | | | |], q; cbn [see] in E; try (injection E as <-; cbn; try discriminate; exact L);
      try (destruct (last_ (c :: s)); injection E as <-; discriminate); exfalso; apply L; reflexivity. }
    destruct (IH q1 L1) as (q2 & E2 & L2). exists q2. cbn [sees]. rewrite E. split; assumption.
  - exfalso. destruct p as [[|c s]| | | | | |], q; cbn [see] in E; try discriminate; apply L; reflexivity.
Qed.
Definition post_text (e : lev) (s : ustr) : option lev :=
  match s with
  | [] => Some e
  | _ => match e with F => if lead s then Some (if last_ s then V else A) else None | _ => Some (if last_ s then V else A) end
  end.
Lemma K_text e s e' : post_text e s = Some e' -> K e [PT s] e'.
Proof.
  intros H q L. destruct s as [|c s]; [injection H as <-; exists q; split; [reflexivity|exact L]|].
  exists (if last_ (c :: s) then Visible else Blank). cbn [sees see]. unfold post_text in H. destruct e, q.
  all: try discriminate L. all: try (exfalso; apply L; reflexivity).
  all: try (destruct (lead (c :: s)); [|discriminate H]).
  all: injection H as <-; destruct (last_ (c :: s)); (split; [reflexivity|]); cbn; try reflexivity; discriminate.
Qed.
Lemma K_gap e l : le e A -> K e l A.
Proof. intro L. eapply K_weak; [apply K_any|exact L|apply le_refl]. Qed.
Lemma K_flat {B} (f : B -> list piece) a c e l :
  Forall (fun x => K a (f x) c) l -> le e a -> le c a -> K e (flat_map f l) (join e c).
Proof.
  intros H L1 L2. assert (G : forall d, le d a -> le d (join e c) -> K d (flat_map f l) (join e c)).
  { induction H as [|x l Hx H IH]; intros d L L'; [cbn; eapply K_weak; [apply K_nil|apply le_refl|exact L']|].
    cbn [flat_map]. eapply K_app; [eapply K_weak; [exact Hx|exact L|apply le_refl]|]. apply IH; [exact L2|].
    destruct e, c; exact I. }
  apply G; [exact L1|]. destruct e, c; exact I.
Qed.

Lemma KD_nil e : KD e [] e.
Proof. apply K_nil. Qed.
Lemma KD_cons e x m l e' : K1 e x m -> KD m l e' -> KD e (x :: l) e'.
Proof. apply K_app. Qed.
Lemma KD_app e a m c e' : KD e a m -> KD m c e' -> KD e (a ++ c) e'.
Proof. unfold KD. rewrite flat_map_app. apply K_app. Qed.
Lemma KD_list a c e l m : Forall (fun x => K1 a x c) l -> le e a -> le c a -> join e c = m -> KD e l m.
Proof. intros H L1 L2 <-. exact (K_flat seq a c e l H L1 L2). Qed.

Lemma K1_weak e x e' a a' : K1 e x e' -> le a e -> le e' a' -> K1 a x a'.
Proof. apply K_weak. Qed.
Lemma K1_up e x e' a' : K1 e x e' -> le e' a' -> K1 e x a'.
Proof. intros H L. eapply K1_weak; [exact H|apply le_refl|exact L]. Qed.
Lemma K1_const e s m : post_text e s = Some m -> K1 e (TTxt s) m.
Proof. apply K_text. Qed.
Lemma K1_ml e : le e A -> K1 e ML A.
Proof. apply K_gap. Qed.
Lemma K1_gap e x : le e A -> K1 e x A.
Proof. apply K_gap. Qed.
Lemma K1_concat e l e' : KD e l e' -> K1 e (TConcat l) e'.
Proof. exact (fun H => H). Qed.
Lemma K1_indent e x e' : K1 e x e' -> K1 e (TIndent x) e'.
Proof. exact (fun H => H). Qed.
Lemma K1_dedent e x e' : K1 e x e' -> K1 e (TDedent x) e'.
Proof. exact (fun H => H). Qed.
Lemma K1_group e x e' : K1 e x e' -> K1 e (TGroup x) e'.
Proof. intro H. apply (K_app e [PG] e); [|exact H]. intros q L. exists q. split; [reflexivity|exact L]. Qed.
Lemma K_sign e p : K e (sign_seq p) V.
Proof. destruct p as [[] id]; apply K_text; destruct e; reflexivity. Qed.
Lemma K_opt_sign e (o : option punct) : K e (match o with Some p => sign_seq p | None => [] end) e.
Proof. destruct o as [p|]; [|apply K_nil]. eapply K_weak; [apply (K_sign e)|apply le_refl|apply le_V]. Qed.
Lemma K1_punct e p : K1 e (TPunct p) V.
Proof. apply K_sign. Qed.
Lemma K1_node e h x body tail m e' : KD e body m -> KD m tail e' -> K1 e (TNode h x body tail) e'.
Proof.
  intros H1 H2. unfold K1. cbn [seq]. apply (K_app e _ e).
  { destruct h; try apply K_nil; intros q L; exists q; (split; [reflexivity|exact L]). }
  eapply K_app; [exact H1|]. eapply K_app; [|exact H2].
  unfold end_seq. destruct (prints_punct h); [apply K_opt_sign|apply K_nil].
Qed.
Lemma K1_nodeP e l body e' : KD e body e' -> K1 e (nodeP l body) e'.
Proof. intro H. eapply K1_node; [exact H|apply KD_nil]. Qed.

Definition tight (x : dt) : Prop := K1 F x V.
Lemma K_joined s l : Forall tight l -> K V (flat_map (fun y => s ++ y) (map seq l)) V.
Proof.
  intro H. apply (K_flat (fun y => s ++ y) V V V); try apply le_refl.
  induction H as [|y l Hy HF IH]; cbn [map]; constructor; [|exact IH].
  apply (K_app V _ A); [apply K_gap; exact I|]. eapply K_weak; [exact Hy|apply le_F|apply le_refl].
Qed.
Lemma K_strung1 e s x l : tight x -> Forall tight l -> K e (strung_seq s (map seq (x :: l))) V.
Proof.
  intros Hx HF. cbn [map strung_seq]. eapply K_app; [eapply K_weak; [exact Hx|apply le_F|apply le_refl]|].
  apply K_joined; exact HF.
Qed.
Lemma K_strung e s l : Forall tight l -> K e (strung_seq s (map seq l)) e.
Proof.
  intros HF. destruct HF as [|x l Hx HF]; [apply K_text; reflexivity|].
  eapply K_weak; [apply K_strung1; assumption|apply le_refl|apply le_V].
Qed.
Lemma K1_inter e l sep : Forall tight l -> K1 e (TIntersperse l sep) e.
Proof. apply K_strung. Qed.
Lemma K1_inter1 e x l sep : Forall tight (x :: l) -> K1 e (TIntersperse (x :: l) sep) V.
Proof. intro H. inversion H; subst. apply K_strung1; assumption. Qed.
Lemma K1_surround e l sep o c m m' : K e (ins_seq o) m -> le m A -> K A (ins_seq c) m' -> K e (str_seq o ++ str_seq c) m' ->
  K1 e (TSurround l sep o c) m'.
Proof.
  intros HO L HC HE. unfold K1. cbn [seq]. destruct l as [|x l]; [exact HE|].
  eapply K_app; [exact HO|]. eapply K_app; [|exact HC]. eapply K_weak; [apply K_any|exact L|exact I].
Qed.
Lemma K_members e (ms : list (dt * bool)) : Forall (fun m => tight (fst m)) ms -> K e (mseq ms) e.
Proof.
  intro H. revert e. unfold mseq. induction H as [|[x tr] ms Hx HF IH]; intro e; [apply K_text; reflexivity|]. cbn [map member_seq fst] in *.
  destruct (map _ ms) as [|p ps] eqn:E.
  - eapply K_weak; [exact Hx|apply le_F|apply le_V].
  - eapply K_app; [eapply K_weak; [exact Hx|apply le_F|apply le_refl]|].
    apply (K_app V _ A); [apply K_gap; exact I|]. destruct ms as [|[x2 tr2] ms]; [discriminate|].
    (* what follows is not empty *)
    cbn [map] in E. injection E as <- <-.
    assert (G : forall r, Forall (fun m => tight (fst m)) r -> r <> [] ->
      K A (member_seq (map (fun m : dt * bool => let (x, tr) := m in (seq x, tr)) r)) V).
    { clear. intros r H. induction H as [|[y tr] r Hy HF IH]; intro N; [congruence|]. cbn [map member_seq fst] in *.
      destruct r as [|z r].
      - cbn [map]. eapply K_weak; [exact Hy|exact I|exact I].
      - destruct z as [z tz]. cbn [map] in *. eapply K_app; [eapply K_weak; [exact Hy|exact I|apply le_refl]|].
        apply (K_app V _ A); [apply K_gap; exact I|]. apply IH. discriminate. }
    eapply K_weak; [apply (G ((x2, tr2) :: ms)); [exact HF|discriminate]|apply le_refl|apply le_V].
Qed.
Lemma K1_members e ms : Forall (fun m => tight (fst m)) ms -> K1 e (TMembers ms) e.
Proof. apply K_members. Qed.
Lemma K1_smembers e ms : K1 e (TSurroundMembers ms (U "{") (U "}")) V.
Proof.
  unfold K1. cbn [seq]. apply (K_app e [PT (U "{"); PB] A).
  { apply (K_app e [PT (U "{")] V [PB]); [apply K_text; destruct e; reflexivity|apply K_gap; exact I]. }
  apply (K_app A _ A); [apply K_any|]. apply K_text. reflexivity.
Qed.

(* ------------------------------------------------------------ the syntax types *)

(* What stands before the type, and how it ends. *)
Definition pre (s : sort) : lev :=
  match s with
  | Root | CatchClause | FinallyClause | AnnotationArgumentList | TypeList | ExtendsInterface | SoslQueryBody | SObjectReturn | SoqlQueryBody | UpdateClause | UsingLookupClause | UsingLookupBindClause | SelectClause | AndExpression | OrExpression | BooleanExpression _ | ConditionExpression _ | GroupByClause | WithDataCatFilter | FunctionExpression | GeoLocationType | DottedIdentifier | StorageIdentifier | NotExpression | WhereClause | HavingClause | FindClause | ReturningClause | StorageAlias | UsingClause | WithDataCatExpression | FieldIdentifier | ValueExpression | SelectableExpression | StorageVariant | SoqlLiteral | TriggerEvent | TypeParameter | ComparisonExpression | FromClause | UsingLookupBindExpression | OrderExpression | SoslWithType | WithNetworkExpression | AliasExpression | ComparableListValue | OrderByClause | SoslWithClause | WhenSObjectType | MapKeyInitializer => A
  | _ => F
  end.
Definition post (s : sort) : lev :=
  match s with
  | Annotation | SwitchLabel | Interface_ | Root | AnnotationArgumentList | TypeList | ExtendsInterface | SoslQueryBody | SObjectReturn | SoqlQueryBody | UpdateClause | UsingLookupClause | UsingLookupBindClause | SelectClause | AndExpression | OrExpression | BooleanExpression _ | ConditionExpression _ | GroupByClause | WithDataCatFilter | FunctionExpression | GeoLocationType | DottedIdentifier | StorageIdentifier | NotExpression | WhereClause | HavingClause | FindClause | ReturningClause | StorageAlias | UsingClause | WithDataCatExpression | FieldIdentifier | ValueExpression | SelectableExpression | StorageVariant | SoqlLiteral | TriggerEvent | TypeParameter | ComparisonExpression | FromClause | UsingLookupBindExpression | OrderExpression | SoslWithType | WithNetworkExpression | AliasExpression | ComparableListValue | OrderByClause | SoslWithClause | WhenSObjectType | MapKeyInitializer => A
  | Modifiers => F
  | _ => V
  end.

(* What is needed of the tree: the text of every node but the root begins and ends
   with a visible character. *)
Definition bordered (s : ustr) : Prop := lead s = true /\ last_ s = true.
Definition solid (root : node) : Prop := forall n, In n (flat_map all_nodes (children root)) -> bordered (n_text n).

Section Sorts.
  Variable root : node.
  Hypothesis sane : solid root.
  Variable cm : cmap.
  Variable checked : bool.
  Variable rec : sort -> loc -> res dt.
  Definition KK (s : sort) (x : dt) : Prop := K1 (pre s) x (post s).
  Definition at_ (l : loc) : Prop := pos root l /\ In (l_node l) (flat_map all_nodes (children root)).
  Hypothesis IH : forall s l x, at_ l -> rec s l = Ok x -> KK s x.

  Lemma at_kid l c : pos root l -> In c (kids l) -> at_ c.
  Proof.
    intros P H. split; [eapply Pos_kid; eassumption|]. apply kids_child in H.
    assert (Q : forall n, In n (all_nodes root) -> forall m, In m (children n) -> In m (flat_map all_nodes (children root))).
    { clear. intros n Hn m Hm. 
      revert n Hn m Hm. induction root as [i cs IHc] using node_nested_ind.
      intros n Hn m Hm. cbn [all_nodes children] in *. destruct Hn as [<-|Hn].
      - apply in_flat_map. exists m. split; [exact Hm|destruct m; left; reflexivity].
      - apply in_flat_map in Hn as (c & Hc & Hn). apply in_flat_map. exists c. split; [exact Hc|].
        rewrite Forall_forall in IHc. pose proof (IHc c Hc n Hn m Hm) as G. destruct c. right. exact G. }
    eapply Q; [apply pos_node; exact P|exact H].
  Qed.
  Lemma text_of l : at_ l -> bordered (value l).
  Proof. intros [_ H]. apply sane, H. Qed.
  Lemma r_rec s l x : at_ l -> rec s l = Ok x -> KK s x.
  Proof. apply IH. Qed.
  Lemma r_by_n f s l x : pos root l -> by_n rec f s l = Ok x -> KK s x.
  Proof.
    intros P H. unfold by_n in H. apply bind_inv in H as (c & E & H). apply must_inv, near_n in E.
    eapply r_rec; [eapply at_kid; eassumption|exact H].
  Qed.
  Lemma r_by_k k s l x : pos root l -> by_k rec k s l = Ok x -> KK s x.
  Proof.
    intros P H. unfold by_k in H. apply bind_inv in H as (c & E & H). apply must_inv, near_k in E.
    eapply r_rec; [eapply at_kid; eassumption|exact H].
  Qed.
  Lemma r_fst s l x : pos root l -> fst_c rec s l = Ok x -> KK s x.
  Proof.
    intros P H. unfold fst_c in H. apply bind_inv in H as (c & E & H). apply must_inv, near_first in E.
    eapply r_rec; [eapply at_kid; eassumption|exact H].
  Qed.
  Definition lone (s : sort) (ds : list dt) : Prop := ds = [] \/ exists d, ds = [d] /\ KK s d.
  Lemma r_opt_k k s l ds : pos root l -> opt_k rec k s l = Ok ds -> lone s ds.
  Proof.
    intros P H. unfold opt_k in H. destruct (try_c_by_k k l) as [c|] eqn:E.
    - apply bind_inv in H as (d & E2 & H). injection H as <-. right. exists d. split; [reflexivity|].
      apply near_k in E. eapply r_rec; [eapply at_kid; eassumption|exact E2].
    - injection H as <-. left. reflexivity.
  Qed.
  Lemma r_opt_n k s l ds : pos root l -> opt_n rec k s l = Ok ds -> lone s ds.
  Proof.
    intros P H. unfold opt_n in H. destruct (try_c_by_n k l) as [c|] eqn:E.
    - apply bind_inv in H as (d & E2 & H). injection H as <-. right. exists d. split; [reflexivity|].
      apply near_n in E. eapply r_rec; [eapply at_kid; eassumption|exact E2].
    - injection H as <-. left. reflexivity.
  Qed.
  Lemma r_map s cs ds : (forall c, In c cs -> at_ c) -> mapR (rec s) cs = Ok ds -> Forall (KK s) ds.
  Proof.
    intros P. revert ds. induction cs as [|c cs IHc]; intros ds H; cbn [mapR] in H.
    - injection H as <-. constructor.
    - apply bind_inv in H as (d & E & H). apply bind_inv in H as (ds' & E' & H). injection H as <-. constructor.
      + eapply r_rec; eauto. apply P. left. reflexivity.
      + apply IHc; [|exact E']. intros x Hx. apply P. right. exact Hx.
  Qed.
  Definition some (s : sort) (ds : list dt) : Prop := exists d r, ds = d :: r /\ KK s d /\ Forall (KK s) r.
  Lemma r_map1 s cs ds : cs <> [] -> (forall c, In c cs -> at_ c) -> mapR (rec s) cs = Ok ds -> some s ds.
  Proof.
    intros N P H. destruct cs as [|c cs]; [congruence|]. pose proof (r_map s _ _ P H) as G.
    cbn [mapR] in H. apply bind_inv in H as (d & E & H). apply bind_inv in H as (ds' & E' & H). injection H as <-.
    inversion G; subst. exists d, ds'. auto.
  Qed.
  Lemma r_all_k k s l ds : pos root l -> all_k rec k s l = Ok ds -> Forall (KK s) ds.
  Proof. intros P. apply r_map. intros c Hc. apply near_ks in Hc. eapply at_kid; eassumption. Qed.
  Lemma r_all1_k k s l ds : pos root l -> all1_k rec k s l = Ok ds -> some s ds.
  Proof.
    intros P H. unfold all1_k in H. apply bind_inv in H as (cs & E & H).
    assert (N : cs <> []) by (unfold cs_by_k in E; destruct (try_cs_by_k k l); [discriminate|]; injection E as <-; discriminate).
    apply cs_k_inv in E as ->.
    eapply r_map1; [exact N| |exact H]. intros c Hc. apply near_ks in Hc. eapply at_kid; eassumption.
  Qed.
  Lemma r_all1_n f s l ds : pos root l -> all1_n rec f s l = Ok ds -> some s ds.
  Proof.
    intros P H. unfold all1_n in H. apply bind_inv in H as (cs & E & H).
    eapply r_map1; [| |exact H].
    - unfold cs_by_n in E. destruct (filter _ (kids l)); [discriminate|]. injection E as <-. discriminate.
    - intros c Hc. pose proof (cs_n_inv _ _ _ E c Hc). eapply at_kid; eassumption.
  Qed.
  Lemma r_all_c s l ds : pos root l -> all_c rec s l = Ok ds -> Forall (KK s) ds.
  Proof. intros P. apply r_map. intros c Hc. apply near_vec in Hc. eapply at_kid; eassumption. Qed.
  Lemma r_member s l d : at_ l -> body_member cm checked rec s l = Ok d -> KK s (fst d).
  Proof.
    intros P H. unfold body_member in H. apply bind_inv in H as (x & E & H). apply bind_inv in H as (tr & _ & H).
    injection H as <-. eapply r_rec; eauto.
  Qed.
  Definition tight_sort (s : sort) : Prop := pre s = F /\ post s = V.
  Lemma KK_tight s x : tight_sort s -> KK s x -> tight x.
  Proof. intros [E1 E2] H. unfold KK in H. rewrite E1, E2 in H. exact H. Qed.
  Lemma r_members s cs ds : tight_sort s -> (forall c, In c cs -> at_ c) ->
    mapR (body_member cm checked rec s) cs = Ok ds -> Forall (fun m => tight (fst m)) ds.
  Proof.
    intros T P. revert ds. induction cs as [|c cs IHc]; intros ds H; cbn [mapR] in H.
    - injection H as <-. constructor.
    - apply bind_inv in H as (d & E & H). apply bind_inv in H as (ds' & E' & H). injection H as <-. constructor.
      + eapply KK_tight; [exact T|]. eapply r_member; eauto. apply P. left. reflexivity.
      + apply IHc; [|exact E']. intros x Hx. apply P. right. exact Hx.
  Qed.
  Lemma r_members_vec s l ds : tight_sort s -> pos root l ->
    mapR (body_member cm checked rec s) (children_vec l) = Ok ds -> Forall (fun m => tight (fst m)) ds.
  Proof. intros T P. apply r_members; [exact T|]. intros c Hc. apply near_vec in Hc. eapply at_kid; eassumption. Qed.
  Lemma lead_map f s : (forall c, is_ws (f c) = is_ws c) -> lead (map f s) = lead s.
  Proof. intro H. destruct s as [|c s]; [reflexivity|]. cbn. rewrite H. reflexivity. Qed.
  Lemma bordered_map f s : (forall c, is_ws (f c) = is_ws c) -> bordered s -> bordered (map f s).
  Proof. intros H [H1 H2]. unfold bordered, last_. rewrite <- map_rev, !lead_map by exact H. split; assumption. Qed.
  Lemma ws_upper c : is_ws (upper1 c) = is_ws c.
  Proof.
    unfold upper1. destruct ((97 <=? c)%N && (c <=? 122)%N) eqn:E; [|reflexivity].
    apply Bool.andb_true_iff in E as [E1 E2]. apply N.leb_le in E1. apply N.leb_le in E2. unfold is_ws.
    repeat match goal with
      | |- context [(?a <=? ?b)%N] => destruct (N.leb_spec a b); try lia
      | |- context [(?a =? ?b)%N] => destruct (N.eqb_spec a b); try lia
      end; reflexivity.
  Qed.
  Lemma K1_bordered e s : bordered s -> K1 e (TTxt s) V.
  Proof.
    intros [H1 H2]. apply K1_const. unfold post_text. destruct s; [discriminate|]. rewrite H1, H2. destruct e; reflexivity.
  Qed.
  Lemma K1_value e l : at_ l -> K1 e (TTxt (value l)) V.
  Proof. intro H. apply K1_bordered, text_of, H. Qed.
  Lemma K1_vn e l : at_ l -> K1 e (vn l) V.
  Proof. intro P. apply K1_nodeP. eapply KD_cons; [apply K1_value, P|apply KD_nil]. Qed.
  Lemma K1_vnl e l : at_ l -> K1 e (vn_lower l) V.
  Proof. intro P. apply K1_nodeP. eapply KD_cons; [apply K1_bordered, bordered_map; [exact ws_lower|apply text_of, P]|apply KD_nil]. Qed.
  Lemma K1_vnu e l : at_ l -> K1 e (vn_upper l) V.
  Proof. intro P. apply K1_nodeP. eapply KD_cons; [apply K1_bordered, bordered_map; [exact ws_upper|apply text_of, P]|apply KD_nil]. Qed.
  Lemma K1_hyp e s x m : KK s x -> le e (pre s) -> post s = m -> K1 e x m.
  Proof. intros H L <-. eapply K1_weak; [exact H|exact L|apply le_refl]. Qed.
  Lemma KK_all s l : tight_sort s -> Forall (KK s) l -> Forall tight l.
  Proof. intro T. apply Forall_impl. intros x. apply KK_tight, T. Qed.

  Lemma K1_decls e ds : Forall tight ds -> K1 e (declarators_doc ds) e.
  Proof.
    intro H. unfold declarators_doc. destruct ds as [|d [|d' ds]].
    - apply K1_group, K1_indent, (K1_inter e [] sepSL). constructor.
    - inversion H; subst. eapply K1_weak; [eassumption|apply le_F|apply le_V].
    - apply K1_group, K1_indent, K1_inter; exact H.
  Qed.
  Lemma K1_decls1 e d ds : Forall tight (d :: ds) -> K1 e (declarators_doc (d :: ds)) V.
  Proof.
    intro H. unfold declarators_doc. destruct ds as [|d' ds].
    - inversion H; subst. eapply K1_weak; [eassumption|apply le_F|apply le_V].
    - apply K1_group, K1_indent, K1_inter1; exact H.
  Qed.
  Lemma next_pos l o c : In o (kids l) -> pos root l -> next_named o = Ok c -> at_ c.
  Proof. intros Ho P H. apply (next_named_in l) in H as [H _]; [|exact Ho]. eapply at_kid; eassumption. Qed.
  Lemma opt_at k l c : pos root l -> try_c_by_k k l = Some c -> at_ c.
  Proof. intros P H. apply near_k in H. eapply at_kid; eassumption. Qed.

  Lemma opt_at_n k l c : pos root l -> try_c_by_n k l = Some c -> at_ c.
  Proof. intros P H. apply near_n in H. eapply at_kid; eassumption. Qed.
  Lemma K1_quoted e s : K1 e (TTxt (U "'" ++ s ++ U "'")) V.
  Proof.
    apply K1_const. change (U "'") with [39%N]. unfold post_text, last_. cbn [app rev]. rewrite !rev_app_distr. destruct e; reflexivity.
  Qed.
  Ltac place E := first [ eapply at_kid in E; [|eassumption]; let P := fresh "P" in pose proof (proj1 E) as P | idtac ].
  Ltac sort_fact E :=
    lazymatch type of E with
    | by_n _ _ _ _ = Ok _ => eapply r_by_n in E; [|eassumption]
    | by_k _ _ _ _ = Ok _ => eapply r_by_k in E; [|eassumption]
    | fst_c _ _ _ = Ok _ => eapply r_fst in E; [|eassumption]
    | opt_k _ _ _ _ = Ok _ => eapply r_opt_k in E; [|eassumption]; destruct E as [->|(? & -> & E)]
    | opt_n _ _ _ _ = Ok _ => eapply r_opt_n in E; [|eassumption]; destruct E as [->|(? & -> & E)]
    | all_k _ _ _ _ = Ok _ => eapply r_all_k in E; [|eassumption]
    | all1_k _ _ _ _ = Ok _ => eapply r_all1_k in E; [|eassumption]; destruct E as (? & ? & -> & E & ?)
    | all1_n _ _ _ _ = Ok _ => eapply r_all1_n in E; [|eassumption]; destruct E as (? & ? & -> & E & ?)
    | all_c _ _ _ = Ok _ => eapply r_all_c in E; [|eassumption]
    | mapR (body_member _ _ _ _) (children_vec _) = Ok _ => eapply r_members_vec in E; [|split; reflexivity|eassumption]
    | vn_n _ _ = Ok _ => apply rmap_inv in E as (? & E & ->); apply must_inv, near_n in E; place E
    | vn_k _ _ = Ok _ => apply rmap_inv in E as (? & E & ->); apply must_inv, near_k in E; place E
    | cvalue_by_n _ _ = Ok _ => apply rmap_inv in E as (? & E & ->); apply must_inv, near_n in E; place E
    | cvalue_by_k _ _ = Ok _ => apply rmap_inv in E as (? & E & ->); apply must_inv, near_k in E; place E
    | c_by_n _ _ = Ok _ => apply must_inv, near_n in E; place E
    | c_by_k _ _ = Ok _ => apply must_inv, near_k in E; place E
    | first_c _ = Ok _ => apply must_inv, near_first in E; place E
    | try_c_by_n _ _ = Some _ => apply near_n in E; place E
    | try_c_by_k _ _ = Some _ => apply near_k in E; place E
    | try_first_c _ = Some _ => apply near_first in E; place E
    | rec _ _ = Ok _ => try (eapply r_rec in E; [|eassumption])
    | _ => idtac
    end.
  Ltac split_new H :=
    lazymatch type of H with
    | rbind _ _ = Ok _ =>
        let a := fresh "v" in let E := fresh "E" in
        apply bind_inv in H as (a & E & H); split_new E; split_new H
    | wrap_r _ = Ok _ => let a := fresh "v" in unfold wrap_r in H; apply rmap_inv in H as (a & H & ->); split_new H
    | rmap _ _ = Ok _ => let a := fresh "v" in apply rmap_inv in H as (a & H & ->); split_new H
    | (if ?b then _ else _) = Ok _ => let Q := fresh "Q" in destruct b eqn:Q; split_new H
    | match ?o with Some _ => _ | None => _ end = Ok _ =>
        let Q := fresh "Q" in destruct o eqn:Q; [sort_fact Q|]; split_new H
    | Ok ?a = Ok ?b => injection H as H; subst
    | Panic _ = _ => discriminate H
    | unknown _ = _ => discriminate H
    | assert_check _ _ = _ => idtac
    | new_Dimensions _ = _ => unfold new_Dimensions in H; split_new H
    | new_This _ = _ => unfold new_This in H; split_new H
    | new_Super _ = _ => unfold new_Super in H; split_new H
    | new_BoolType _ = _ => unfold new_BoolType in H; split_new H
    | new_AllRowsClause _ = _ => unfold new_AllRowsClause in H; split_new H
    | new_SafeNavigationOperator _ = _ => unfold new_SafeNavigationOperator in H; split_new H
    | new_DateLiteralWithParam _ = _ => unfold new_DateLiteralWithParam in H; split_new H
    | new_Literal_ _ = _ => unfold new_Literal_ in H; split_new H
    | opt_dimensions_k _ = _ => unfold opt_dimensions_k in H; split_new H
    | _ => sort_fact H
    end.

  Ltac les := first [apply le_refl | apply le_F | apply le_V | exact I | assumption].
  Ltac jtext := vm_compute; reflexivity.
  Ltac jins := unfold ins_seq, str_seq, sepSL, sepNL, sepML, sepStr, mk_ins; cbn [t_pre t_str t_suf option_map opt_seq leaf_seq app];
    repeat first [ apply K_nil
                 | apply K_text; jtext
                 | lazymatch goal with |- K ?e (PT ?s :: _) _ => eapply (K_app e [PT s]); [apply K_text; jtext|]
                                     | |- K ?e (?p :: _) _ => eapply (K_app e [p]); [apply K_gap; exact I|] end ].
  Ltac j1 :=
    lazymatch goal with
    | |- K1 _ (if ?b then _ else _) _ => let Q := fresh in destruct b eqn:Q; j1
    | |- K1 _ (match ?o with _ => _ end) _ => destruct o; j1
    | |- K1 _ (nodeP _ _) _ => eapply K1_nodeP; jd
    | |- K1 _ (TNode _ _ _ _) _ => eapply K1_node; jd
    | |- K1 _ (TConcat _) _ => eapply K1_concat; jd
    | |- K1 _ (wrap _) _ => eapply K1_concat; jd
    | |- K1 _ (TIndent _) _ => eapply K1_indent; j1
    | |- K1 _ (TDedent _) _ => eapply K1_dedent; j1
    | |- K1 _ (TGroup _) _ => eapply K1_group; j1
    | |- K1 _ (gc _) _ => eapply K1_group, K1_concat; jd
    | |- K1 _ (gic _) _ => eapply K1_group, K1_indent, K1_concat; jd
    | |- K1 _ (gsur _ _ _ _) _ => unfold gsur; eapply K1_group; j1
    | |- K1 _ (gparen _) _ => unfold gparen, gsur; eapply K1_group; j1
    | |- K1 _ (surr _ _ _ _ _) _ => unfold surr; j1
    | |- K1 _ (TSurround _ _ _ _) _ => eapply K1_surround; [jins|exact I|jins|jins]
    | |- K1 _ (TIntersperse (_ :: _) _) _ => first [apply K1_inter1; jl|apply K1_gap; exact I]
    | |- K1 _ (TIntersperse _ _) _ => first [apply K1_inter; jl|apply K1_gap; exact I]
    | |- K1 _ (TMembers _) _ => apply K1_members; assumption
    | |- K1 _ (TSurroundMembers _ _ _) _ => apply K1_smembers
    | |- K1 _ (declarators_doc (_ :: _)) _ => apply K1_decls1; jl
    | |- K1 _ (declarators_doc _) _ => apply K1_decls; jl
    | |- K1 _ dot_navigation _ => unfold dot_navigation; j1
    | |- K1 _ (vn _) _ => first [apply K1_vn; assumption|apply K1_gap; exact I]
    | |- K1 _ (vn_lower _) _ => first [apply K1_vnl; assumption|apply K1_gap; exact I]
    | |- K1 _ (vn_upper _) _ => first [apply K1_vnu; assumption|apply K1_gap; exact I]
    | |- K1 _ NL _ => apply K1_gap; exact I
    | |- K1 _ SL _ => apply K1_gap; exact I
    | |- K1 _ ML _ => apply K1_gap; exact I
    | |- K1 _ TEmptyLine _ => apply K1_gap; exact I
    | |- K1 _ (TPunct _) _ => apply K1_punct
    | |- K1 _ (TTxt (c_sp :: value _ ++ [c_sp])) _ => apply K1_gap; exact I
    | |- K1 _ (TTxt (U "'" ++ _ ++ U "'")) _ => apply K1_quoted
    | |- K1 _ (TTxt (value _)) _ => first [apply K1_value; assumption|apply K1_gap; exact I]
    | |- K1 _ (t (kind _)) _ => apply K1_gap; exact I
    | |- K1 _ (TTxt _) _ => apply K1_const; jtext
    | |- K1 _ (t _) _ => apply K1_const; jtext
    | |- K1 _ (t_ _) _ => apply K1_const; jtext
    | |- K1 _ (_t _) _ => apply K1_const; jtext
    | |- K1 _ (_t_ _) _ => apply K1_const; jtext
    | |- K1 _ sp _ => apply K1_const; jtext
    | |- K1 _ tnil _ => apply K1_const; jtext
    | |- K1 _ ?x _ => match goal with H : K1 A x V |- _ => eapply K1_weak; [exact H|les|apply le_refl] | H : KK _ x |- _ => eapply (K1_hyp _ _ _ _ H); [les|reflexivity] | _ => apply K1_gap; exact I end
    end
  with jd :=
    lazymatch goal with
    | |- KD _ [] _ => apply KD_nil
    | |- KD _ (_ :: _) _ => eapply KD_cons; [j1|jd]
    | |- KD _ (_ ++ _) _ => eapply KD_app; [jd|jd]
    | |- KD _ (if ?b then _ else _) _ => let Q := fresh in destruct b eqn:Q; jd
    | |- KD _ (match ?o with _ => _ end) _ => destruct o; jd
    | |- KD _ (New.before _ _) _ => unfold New.before; cbn [is_nil]; jd
    | |- KD _ (New.after _ _) _ => unfold New.after; cbn [is_nil]; jd
    | |- KD _ ?l _ => first [match goal with H : Forall (KK _) l |- _ => eapply (KD_list _ _ _ _ _ H); [les|les|reflexivity] end|apply K_gap; exact I]
    end
  with jl :=
    lazymatch goal with
    | |- Forall tight [] => constructor
    | |- Forall tight (_ :: _) => first [match goal with H : Forall (KK _) ?l |- Forall tight ?l => refine (KK_all _ _ _ H); split; reflexivity end | constructor; [jw|jl]]
    | |- Forall tight (_ ++ _) => apply Forall_app; split; jl
    | |- Forall tight (if ?b then _ else _) => let Q := fresh in destruct b eqn:Q; jl
    | |- Forall tight ?l => match goal with H : Forall (KK _) l |- _ => refine (KK_all _ _ _ H); split; reflexivity end
    end
  with jw := unfold tight; eapply K1_up; [j1|les].
  Ltac sort_done :=
    unfold opt_vn_k; repeat match goal with |- context [opt_list vn (try_c_by_k ?k ?l)] => let Q := fresh "Q" in destruct (try_c_by_k k l) eqn:Q; cbn [opt_list]; [eapply opt_at in Q; [|eassumption]|] end;
    try match goal with v : option (bool * bool) |- _ => destruct v as [[[] []]|]; cbn [orb app] end;
    try match goal with |- context [try_c_by_n ?k ?l] => let Q := fresh "Q" in destruct (try_c_by_n k l) eqn:Q; [eapply opt_at_n in Q; [|eassumption]|] end;
    unfold loop_body; repeat match goal with |- context [is_semicolumn ?b] => destruct (is_semicolumn b) end; cbn [is_nil orb andb app New.before New.after]; unfold KK; cbn [pre post];
    (eapply K1_up; [j1|les]).

  Lemma parent_pos l p : pos root l -> parent l = Some p -> pos root p.
  Proof. intros P H. destruct P as [|l c P Hc]; [discriminate|]. apply kids_parent in Hc. congruence. Qed.
  Lemma ClassDeclaration_K l x : at_ l -> new_ClassDeclaration rec l = Ok x -> KK ClassDeclaration x.
  Proof. intros T H. pose proof (proj1 T) as P. unfold new_ClassDeclaration in H. split_new H; sort_done. Qed.
  Lemma MethodDeclaration_K l x : at_ l -> new_MethodDeclaration rec l = Ok x -> KK MethodDeclaration x.
  Proof. intros T H. pose proof (proj1 T) as P. unfold new_MethodDeclaration in H. split_new H; sort_done. Qed.
  Lemma FormalParameters_K l x : at_ l -> new_FormalParameters rec l = Ok x -> KK FormalParameters x.
  Proof. intros T H. pose proof (proj1 T) as P. unfold new_FormalParameters in H. split_new H; sort_done. Qed.
  Lemma FormalParameter_K l x : at_ l -> new_FormalParameter rec l = Ok x -> KK FormalParameter x.
  Proof. intros T H. pose proof (proj1 T) as P. unfold new_FormalParameter in H. split_new H; sort_done. Qed.
  Lemma SuperClass_K l x : at_ l -> new_SuperClass rec l = Ok x -> KK SuperClass x.
  Proof. intros T H. pose proof (proj1 T) as P. unfold new_SuperClass in H. split_new H; sort_done. Qed.
  Lemma Annotation_K l x : at_ l -> new_Annotation rec l = Ok x -> KK Annotation x.
  Proof. intros T H. pose proof (proj1 T) as P. unfold new_Annotation in H. split_new H; sort_done. Qed.
  Lemma AnnotationKeyValue_K l x : at_ l -> new_AnnotationKeyValue l = Ok x -> KK AnnotationKeyValue x.
  Proof. intros T H. pose proof (proj1 T) as P. unfold new_AnnotationKeyValue in H. split_new H; sort_done. Qed.
  Lemma ClassBody_K l x : at_ l -> new_ClassBody cm checked rec l = Ok x -> KK ClassBody x.
  Proof. intros T H. pose proof (proj1 T) as P. unfold new_ClassBody in H. split_new H; sort_done. Qed.
  Lemma FieldDeclaration_K l x : at_ l -> new_FieldDeclaration rec l = Ok x -> KK FieldDeclaration x.
  Proof. intros T H. pose proof (proj1 T) as P. unfold new_FieldDeclaration in H. split_new H; sort_done. Qed.
  Lemma ArrayInitializer_K l x : at_ l -> new_ArrayInitializer rec l = Ok x -> KK ArrayInitializer x.
  Proof. intros T H. pose proof (proj1 T) as P. unfold new_ArrayInitializer in H. split_new H; sort_done. Qed.
  Lemma AssignmentExpression_K l x : at_ l -> new_AssignmentExpression rec l = Ok x -> KK AssignmentExpression x.
  Proof. intros T H. pose proof (proj1 T) as P. unfold new_AssignmentExpression in H. split_new H; sort_done. Qed.
  Lemma AssignmentLeft_K l x : at_ l -> new_AssignmentLeft rec l = Ok x -> KK AssignmentLeft x.
  Proof. intros T H. pose proof (proj1 T) as P. unfold new_AssignmentLeft in H. split_new H; sort_done. Qed.
  Lemma Block_K l x : at_ l -> new_Block cm checked rec l = Ok x -> KK Block x.
  Proof. intros T H. pose proof (proj1 T) as P. unfold new_Block in H. split_new H; sort_done. Qed.
  Lemma Interface__K l x : at_ l -> new_Interface rec l = Ok x -> KK Interface_ x.
  Proof. intros T H. pose proof (proj1 T) as P. unfold new_Interface in H. split_new H; sort_done. Qed.
  Lemma ObjectExpression_K l x : at_ l -> new_ObjectExpression rec l = Ok x -> KK ObjectExpression x.
  Proof. intros T H. pose proof (proj1 T) as P. unfold new_ObjectExpression in H. split_new H; sort_done. Qed.
  Lemma MethodInvocation_K l x : at_ l -> new_MethodInvocation rec l = Ok x -> KK MethodInvocation x.
  Proof. intros T H. pose proof (proj1 T) as P. unfold new_MethodInvocation in H. split_new H; sort_done. Qed.
  Lemma TypeArguments_K l x : at_ l -> new_TypeArguments rec l = Ok x -> KK TypeArguments x.
  Proof. intros T H. pose proof (proj1 T) as P. unfold new_TypeArguments in H. split_new H; sort_done. Qed.
  Lemma ArgumentList_K l x : at_ l -> new_ArgumentList rec l = Ok x -> KK ArgumentList x.
  Proof. intros T H. pose proof (proj1 T) as P. unfold new_ArgumentList in H. split_new H; sort_done. Qed.
  Lemma BinaryExpression_K l x : at_ l -> new_BinaryExpression rec l = Ok x -> KK BinaryExpression x.
  Proof. intros T H. pose proof (proj1 T) as P. unfold new_BinaryExpression in H. split_new H; sort_done. Qed.
  Lemma LocalVariableDeclaration_K l x : at_ l -> new_LocalVariableDeclaration rec l = Ok x -> KK LocalVariableDeclaration x.
  Proof. intros T H. pose proof (proj1 T) as P. unfold new_LocalVariableDeclaration in H. split_new H; sort_done. Qed.
  Lemma VariableDeclarator_K l x : at_ l -> new_VariableDeclarator rec l = Ok x -> KK VariableDeclarator x.
  Proof. intros T H. pose proof (proj1 T) as P. unfold new_VariableDeclarator in H. split_new H; sort_done. Qed.
  Lemma GenericType_K l x : at_ l -> new_GenericType rec l = Ok x -> KK GenericType x.
  Proof. intros T H. pose proof (proj1 T) as P. unfold new_GenericType in H. split_new H; sort_done. Qed.
  Lemma IfStatement_K l x : at_ l -> new_IfStatement rec l = Ok x -> KK IfStatement x.
  Proof. intros T H. pose proof (proj1 T) as P. unfold new_IfStatement in H. split_new H; sort_done. Qed.
  Lemma ParenthesizedExpression_K l x : at_ l -> new_ParenthesizedExpression rec l = Ok x -> KK ParenthesizedExpression x.
  Proof. intros T H. pose proof (proj1 T) as P. unfold new_ParenthesizedExpression in H. split_new H; sort_done. Qed.
  Lemma EnhancedForStatement_K l x : at_ l -> new_EnhancedForStatement rec l = Ok x -> KK EnhancedForStatement x.
  Proof. intros T H. pose proof (proj1 T) as P. unfold new_EnhancedForStatement in H. split_new H; sort_done. Qed.
  Lemma ConstructorDeclaration_K l x : at_ l -> new_ConstructorDeclaration rec l = Ok x -> KK ConstructorDeclaration x.
  Proof. intros T H. pose proof (proj1 T) as P. unfold new_ConstructorDeclaration in H. split_new H; sort_done. Qed.
  Lemma TypeParameters_K l x : at_ l -> new_TypeParameters rec l = Ok x -> KK TypeParameters x.
  Proof. intros T H. pose proof (proj1 T) as P. unfold new_TypeParameters in H. split_new H; sort_done. Qed.
  Lemma ObjectCreationExpression_K l x : at_ l -> new_ObjectCreationExpression rec l = Ok x -> KK ObjectCreationExpression x.
  Proof. intros T H. pose proof (proj1 T) as P. unfold new_ObjectCreationExpression in H. split_new H; sort_done. Qed.
  Lemma RunAsStatement_K l x : at_ l -> new_RunAsStatement rec l = Ok x -> KK RunAsStatement x.
  Proof. intros T H. pose proof (proj1 T) as P. unfold new_RunAsStatement in H. split_new H; sort_done. Qed.
  Lemma DoStatement_K l x : at_ l -> new_DoStatement rec l = Ok x -> KK DoStatement x.
  Proof. intros T H. pose proof (proj1 T) as P. unfold new_DoStatement in H. split_new H; sort_done. Qed.
  Lemma WhileStatement_K l x : at_ l -> new_WhileStatement rec l = Ok x -> KK WhileStatement x.
  Proof. intros T H. pose proof (proj1 T) as P. unfold new_WhileStatement in H. split_new H; sort_done. Qed.
  Lemma FieldAccess_K l x : at_ l -> new_FieldAccess rec l = Ok x -> KK FieldAccess x.
  Proof. intros T H. pose proof (proj1 T) as P. unfold new_FieldAccess in H. split_new H; sort_done. Qed.
  Lemma EnumDeclaration_K l x : at_ l -> new_EnumDeclaration rec l = Ok x -> KK EnumDeclaration x.
  Proof. intros T H. pose proof (proj1 T) as P. unfold new_EnumDeclaration in H. split_new H; sort_done. Qed.
  Lemma EnumBody_K l x : at_ l -> new_EnumBody rec l = Ok x -> KK EnumBody x.
  Proof. intros T H. pose proof (proj1 T) as P. unfold new_EnumBody in H. split_new H; sort_done. Qed.
  Lemma EnumConstant_K l x : at_ l -> new_EnumConstant rec l = Ok x -> KK EnumConstant x.
  Proof. intros T H. pose proof (proj1 T) as P. unfold new_EnumConstant in H. split_new H; sort_done. Qed.
  Lemma DmlSecurityMode_K l x : at_ l -> new_DmlSecurityMode l = Ok x -> KK DmlSecurityMode x.
  Proof. intros T H. pose proof (proj1 T) as P. unfold new_DmlSecurityMode in H. split_new H; sort_done. Qed.
  Lemma DmlExpression_K l x : at_ l -> new_DmlExpression rec l = Ok x -> KK DmlExpression x.
  Proof. intros T H. pose proof (proj1 T) as P. unfold new_DmlExpression in H. split_new H; sort_done. Qed.
  Lemma ArrayAccess_K l x : at_ l -> new_ArrayAccess rec l = Ok x -> KK ArrayAccess x.
  Proof. intros T H. pose proof (proj1 T) as P. unfold new_ArrayAccess in H. split_new H; sort_done. Qed.
  Lemma ArrayCreationExpression_K l x : at_ l -> new_ArrayCreationExpression rec l = Ok x -> KK ArrayCreationExpression x.
  Proof. intros T H. pose proof (proj1 T) as P. unfold new_ArrayCreationExpression in H. split_new H; sort_done. Qed.
  Lemma DimensionsExpr_K l x : at_ l -> new_DimensionsExpr rec l = Ok x -> KK DimensionsExpr x.
  Proof. intros T H. pose proof (proj1 T) as P. unfold new_DimensionsExpr in H. split_new H; sort_done. Qed.
  Lemma ReturnStatement_K l x : at_ l -> new_ReturnStatement rec l = Ok x -> KK ReturnStatement x.
  Proof. intros T H. pose proof (proj1 T) as P. unfold new_ReturnStatement in H. split_new H; sort_done. Qed.
  Lemma TernaryExpression_K l x : at_ l -> new_TernaryExpression rec l = Ok x -> KK TernaryExpression x.
  Proof. intros T H. pose proof (proj1 T) as P. unfold new_TernaryExpression in H. split_new H; sort_done. Qed.
  Lemma TryStatement_K l x : at_ l -> new_TryStatement rec l = Ok x -> KK TryStatement x.
  Proof. intros T H. pose proof (proj1 T) as P. unfold new_TryStatement in H. split_new H; sort_done. Qed.
  Lemma CatchClause_K l x : at_ l -> new_CatchClause rec l = Ok x -> KK CatchClause x.
  Proof. intros T H. pose proof (proj1 T) as P. unfold new_CatchClause in H. split_new H; sort_done. Qed.
  Lemma FinallyClause_K l x : at_ l -> new_FinallyClause rec l = Ok x -> KK FinallyClause x.
  Proof. intros T H. pose proof (proj1 T) as P. unfold new_FinallyClause in H. split_new H; sort_done. Qed.
  Lemma StaticInitializer_K l x : at_ l -> new_StaticInitializer rec l = Ok x -> KK StaticInitializer x.
  Proof. intros T H. pose proof (proj1 T) as P. unfold new_StaticInitializer in H. split_new H; sort_done. Qed.
  Lemma InterfaceDeclaration_K l x : at_ l -> new_InterfaceDeclaration rec l = Ok x -> KK InterfaceDeclaration x.
  Proof. intros T H. pose proof (proj1 T) as P. unfold new_InterfaceDeclaration in H. split_new H; sort_done. Qed.
  Lemma InterfaceBody_K l x : at_ l -> new_InterfaceBody cm checked rec l = Ok x -> KK InterfaceBody x.
  Proof. intros T H. pose proof (proj1 T) as P. unfold new_InterfaceBody in H. split_new H; sort_done. Qed.
  Lemma InterfaceMember_K l x : at_ l -> new_InterfaceMember rec l = Ok x -> KK InterfaceMember x.
  Proof. intros T H. pose proof (proj1 T) as P. unfold new_InterfaceMember in H. split_new H; sort_done. Qed.
  Lemma ConstantDeclaration_K l x : at_ l -> new_ConstantDeclaration rec l = Ok x -> KK ConstantDeclaration x.
  Proof. intros T H. pose proof (proj1 T) as P. unfold new_ConstantDeclaration in H. split_new H; sort_done. Qed.
  Lemma AccessorDeclaration_K l x : at_ l -> new_AccessorDeclaration rec l = Ok x -> KK AccessorDeclaration x.
  Proof. intros T H. pose proof (proj1 T) as P. unfold new_AccessorDeclaration in H. split_new H; sort_done. Qed.
  Lemma CastExpression_K l x : at_ l -> new_CastExpression rec l = Ok x -> KK CastExpression x.
  Proof. intros T H. pose proof (proj1 T) as P. unfold new_CastExpression in H. split_new H; sort_done. Qed.
  Lemma ThrowStatement_K l x : at_ l -> new_ThrowStatement rec l = Ok x -> KK ThrowStatement x.
  Proof. intros T H. pose proof (proj1 T) as P. unfold new_ThrowStatement in H. split_new H; sort_done. Qed.
  Lemma BreakStatement_K l x : at_ l -> new_BreakStatement l = Ok x -> KK BreakStatement x.
  Proof. intros T H. pose proof (proj1 T) as P. unfold new_BreakStatement in H. split_new H; sort_done. Qed.
  Lemma ContinueStatement_K l x : at_ l -> new_ContinueStatement l = Ok x -> KK ContinueStatement x.
  Proof. intros T H. pose proof (proj1 T) as P. unfold new_ContinueStatement in H. split_new H; sort_done. Qed.
  Lemma SwitchExpression_K l x : at_ l -> new_SwitchExpression rec l = Ok x -> KK SwitchExpression x.
  Proof. intros T H. pose proof (proj1 T) as P. unfold new_SwitchExpression in H. split_new H; sort_done. Qed.
  Lemma SwitchBlock_K l x : at_ l -> new_SwitchBlock rec l = Ok x -> KK SwitchBlock x.
  Proof. intros T H. pose proof (proj1 T) as P. unfold new_SwitchBlock in H. split_new H; sort_done. Qed.
  Lemma SwitchRule_K l x : at_ l -> new_SwitchRule rec l = Ok x -> KK SwitchRule x.
  Proof. intros T H. pose proof (proj1 T) as P. unfold new_SwitchRule in H. split_new H; sort_done. Qed.
  Lemma SwitchLabel_K l x : at_ l -> new_SwitchLabel rec l = Ok x -> KK SwitchLabel x.
  Proof. intros T H. pose proof (proj1 T) as P. unfold new_SwitchLabel in H. split_new H; sort_done. Qed.
  Lemma InstanceOfExpression_K l x : at_ l -> new_InstanceOfExpression rec l = Ok x -> KK InstanceOfExpression x.
  Proof. intros T H. pose proof (proj1 T) as P. unfold new_InstanceOfExpression in H. split_new H; sort_done. Qed.
  Lemma VersionExpression_K l x : at_ l -> new_VersionExpression l = Ok x -> KK VersionExpression x.
  Proof. intros T H. pose proof (proj1 T) as P. unfold new_VersionExpression in H. split_new H; sort_done. Qed.
  Lemma JavaFieldAccess_K l x : at_ l -> new_JavaFieldAccess rec l = Ok x -> KK JavaFieldAccess x.
  Proof. intros T H. pose proof (proj1 T) as P. unfold new_JavaFieldAccess in H. split_new H; sort_done. Qed.
  Lemma JavaType_K l x : at_ l -> new_JavaType rec l = Ok x -> KK JavaType x.
  Proof. intros T H. pose proof (proj1 T) as P. unfold new_JavaType in H. split_new H; sort_done. Qed.
  Lemma ArrayType_K l x : at_ l -> new_ArrayType rec l = Ok x -> KK ArrayType x.
  Proof. intros T H. pose proof (proj1 T) as P. unfold new_ArrayType in H. split_new H; sort_done. Qed.
  Lemma TriggerDeclaration_K l x : at_ l -> new_TriggerDeclaration rec l = Ok x -> KK TriggerDeclaration x.
  Proof. intros T H. pose proof (proj1 T) as P. unfold new_TriggerDeclaration in H. split_new H; sort_done. Qed.
  Lemma TriggerBody_K l x : at_ l -> new_TriggerBody rec l = Ok x -> KK TriggerBody x.
  Proof. intros T H. pose proof (proj1 T) as P. unfold new_TriggerBody in H. split_new H; sort_done. Qed.
  Lemma QueryExpression_K l x : at_ l -> new_QueryExpression rec l = Ok x -> KK QueryExpression x.
  Proof. intros T H. pose proof (proj1 T) as P. unfold new_QueryExpression in H. split_new H; sort_done. Qed.
  Lemma InClause_K l x : at_ l -> new_InClause l = Ok x -> KK InClause x.
  Proof. intros T H. pose proof (proj1 T) as P. unfold new_InClause in H. split_new H; sort_done. Qed.
  Lemma LimitClause_K l x : at_ l -> new_LimitClause rec l = Ok x -> KK LimitClause x.
  Proof. intros T H. pose proof (proj1 T) as P. unfold new_LimitClause in H. split_new H; sort_done. Qed.
  Lemma BoundApexExpression_K l x : at_ l -> new_BoundApexExpression rec l = Ok x -> KK BoundApexExpression x.
  Proof. intros T H. pose proof (proj1 T) as P. unfold new_BoundApexExpression in H. split_new H; sort_done. Qed.
  Lemma SoslUsingClause_K l x : at_ l -> new_SoslUsingClause l = Ok x -> KK SoslUsingClause x.
  Proof. intros T H. pose proof (proj1 T) as P. unfold new_SoslUsingClause in H. split_new H; sort_done. Qed.
  Lemma UsingScopeClause_K l x : at_ l -> new_UsingScopeClause l = Ok x -> KK UsingScopeClause x.
  Proof. intros T H. pose proof (proj1 T) as P. unfold new_UsingScopeClause in H. split_new H; sort_done. Qed.
  Lemma UsingListviewClause_K l x : at_ l -> new_UsingListviewClause l = Ok x -> KK UsingListviewClause x.
  Proof. intros T H. pose proof (proj1 T) as P. unfold new_UsingListviewClause in H. split_new H; sort_done. Qed.
  Lemma ComparableList_K l x : at_ l -> new_ComparableList rec l = Ok x -> KK ComparableList x.
  Proof. intros T H. pose proof (proj1 T) as P. unfold new_ComparableList in H. split_new H; sort_done. Qed.
  Lemma SubQuery_K l x : at_ l -> new_SubQuery rec l = Ok x -> KK SubQuery x.
  Proof. intros T H. pose proof (proj1 T) as P. unfold new_SubQuery in H. split_new H; sort_done. Qed.
  Lemma MapCreationExpression_K l x : at_ l -> new_MapCreationExpression rec l = Ok x -> KK MapCreationExpression x.
  Proof. intros T H. pose proof (proj1 T) as P. unfold new_MapCreationExpression in H. split_new H; sort_done. Qed.
  Lemma MapInitializer_K l x : at_ l -> new_MapInitializer rec l = Ok x -> KK MapInitializer x.
  Proof. intros T H. pose proof (proj1 T) as P. unfold new_MapInitializer in H. split_new H; sort_done. Qed.
  Lemma SoqlWithClause_K l x : at_ l -> new_SoqlWithClause rec l = Ok x -> KK SoqlWithClause x.
  Proof. intros T H. pose proof (proj1 T) as P. unfold new_SoqlWithClause in H. split_new H; sort_done. Qed.
  Lemma SoqlWithType_K l x : at_ l -> new_SoqlWithType l = Ok x -> KK SoqlWithType x.
  Proof. intros T H. pose proof (proj1 T) as P. unfold new_SoqlWithType in H. split_new H; sort_done. Qed.
  Lemma WithDivisionExpression_K l x : at_ l -> new_WithDivisionExpression rec l = Ok x -> KK WithDivisionExpression x.
  Proof. intros T H. pose proof (proj1 T) as P. unfold new_WithDivisionExpression in H. split_new H; sort_done. Qed.
  Lemma WithSnippetExpression_K l x : at_ l -> new_WithSnippetExpression l = Ok x -> KK WithSnippetExpression x.
  Proof. intros T H. pose proof (proj1 T) as P. unfold new_WithSnippetExpression in H. split_new H; sort_done. Qed.
  Lemma WithMetadataExpression_K l x : at_ l -> new_WithMetadataExpression l = Ok x -> KK WithMetadataExpression x.
  Proof. intros T H. pose proof (proj1 T) as P. unfold new_WithMetadataExpression in H. split_new H; sort_done. Qed.
  Lemma WithSpellCorrectionExpression_K l x : at_ l -> new_WithSpellCorrectionExpression l = Ok x -> KK WithSpellCorrectionExpression x.
  Proof. intros T H. pose proof (proj1 T) as P. unfold new_WithSpellCorrectionExpression in H. split_new H; sort_done. Qed.
  Lemma WithPriceBookExpression_K l x : at_ l -> new_WithPriceBookExpression l = Ok x -> KK WithPriceBookExpression x.
  Proof. intros T H. pose proof (proj1 T) as P. unfold new_WithPriceBookExpression in H. split_new H; sort_done. Qed.
  Lemma ExpressionStatement_K l x : at_ l -> new_ExpressionStatement rec l = Ok x -> KK ExpressionStatement x.
  Proof. intros T H. pose proof (proj1 T) as P. unfold new_ExpressionStatement in H. split_new H; sort_done. Qed.
  Lemma CountExpression_K l x : at_ l -> new_CountExpression l = Ok x -> KK CountExpression x.
  Proof. intros T H. pose proof (proj1 T) as P. unfold new_CountExpression in H. split_new H; sort_done. Qed.
  Lemma ForClause_K l x : at_ l -> new_ForClause l = Ok x -> KK ForClause x.
  Proof. intros T H. pose proof (proj1 T) as P. unfold new_ForClause in H. split_new H; sort_done. Qed.
  Lemma RootMember_K l x : at_ l -> new_RootMember rec l = Ok x -> KK RootMember x.
  Proof. intros T H. pose proof (proj1 T) as P. unfold new_RootMember in H. split_new H; sort_done. Qed.
  Lemma ClassMember_K l x : at_ l -> new_ClassMember rec l = Ok x -> KK ClassMember x.
  Proof. intros T H. pose proof (proj1 T) as P. unfold new_ClassMember in H. split_new H; sort_done. Qed.
  Lemma UnannotatedType_K l x : at_ l -> new_UnannotatedType rec l = Ok x -> KK UnannotatedType x.
  Proof. intros T H. pose proof (proj1 T) as P. unfold new_UnannotatedType in H. split_new H; sort_done. Qed.
  Lemma SimpleType_K l x : at_ l -> new_SimpleType rec l = Ok x -> KK SimpleType x.
  Proof. intros T H. pose proof (proj1 T) as P. unfold new_SimpleType in H. split_new H; sort_done. Qed.
  Lemma VariableInitializer_K l x : at_ l -> new_VariableInitializer rec l = Ok x -> KK VariableInitializer x.
  Proof. intros T H. pose proof (proj1 T) as P. unfold new_VariableInitializer in H. split_new H; sort_done. Qed.
  Lemma Expression_K l x : at_ l -> new_Expression rec l = Ok x -> KK Expression x.
  Proof. intros T H. pose proof (proj1 T) as P. unfold new_Expression in H. split_new H; sort_done. Qed.
  Lemma PrimaryExpression_K l x : at_ l -> new_PrimaryExpression rec l = Ok x -> KK PrimaryExpression x.
  Proof. intros T H. pose proof (proj1 T) as P. unfold new_PrimaryExpression in H. split_new H; sort_done. Qed.
  Lemma ClassLiteral_K l x : at_ l -> new_ClassLiteral rec l = Ok x -> KK ClassLiteral x.
  Proof. intros T H. pose proof (proj1 T) as P. unfold new_ClassLiteral in H. split_new H; sort_done. Qed.
  Lemma Statement_K l x : at_ l -> new_Statement rec l = Ok x -> KK Statement x.
  Proof. intros T H. pose proof (proj1 T) as P. unfold new_Statement in H. split_new H; sort_done. Qed.
  Lemma Type__K l x : at_ l -> new_Type rec l = Ok x -> KK Type_ x.
  Proof. intros T H. pose proof (proj1 T) as P. unfold new_Type in H. split_new H; sort_done. Qed.
  Lemma FieldsExpression_K l x : at_ l -> new_FieldsExpression l = Ok x -> KK FieldsExpression x.
  Proof. intros T H. pose proof (proj1 T) as P. unfold new_FieldsExpression in H. split_new H; sort_done. Qed.
  Lemma LimitValue_K l x : at_ l -> new_LimitValue rec l = Ok x -> KK LimitValue x.
  Proof. intros T H. pose proof (proj1 T) as P. unfold new_LimitValue in H. split_new H; sort_done. Qed.
  Lemma SetValue_K l x : at_ l -> new_SetValue rec l = Ok x -> KK SetValue x.
  Proof. intros T H. pose proof (proj1 T) as P. unfold new_SetValue in H. split_new H; sort_done. Qed.
  Lemma OffsetClause_K l x : at_ l -> new_OffsetClause rec l = Ok x -> KK OffsetClause x.
  Proof. intros T H. pose proof (proj1 T) as P. unfold new_OffsetClause in H. split_new H; sort_done. Qed.
  Lemma braced mid : KD F ([t "{"] ++ mid ++ [NL; t "}"]) V.
  Proof.
    eapply KD_app; [eapply KD_cons; [apply K1_const; jtext|apply KD_nil]|]. eapply (KD_app _ _ A); [apply K_gap; exact I|].
    eapply KD_cons; [apply K1_gap; exact I|]. eapply KD_cons; [apply K1_const; jtext|apply KD_nil].
  Qed.
  Lemma Modifiers_K l x : at_ l -> new_Modifiers rec l = Ok x -> KK Modifiers x.
  Proof.
    intros T H. pose proof (proj1 T) as P. unfold new_Modifiers in H. split_new H.
    eapply K1_up; [|apply le_refl]. eapply K1_node; [|apply KD_nil]. eapply KD_app.
    - eapply KD_list; [exact E0|apply le_refl|exact I|reflexivity].
    - destruct v1 as [|m ms]; cbn [is_nil]; [apply KD_nil|].
      eapply K_weak; [|apply le_refl|instantiate (1 := A); exact I].
      eapply KD_cons; [apply K1_inter1; exact (KK_all Modifier _ (conj eq_refl eq_refl) E1)|].
      eapply KD_cons; [apply K1_const; jtext|apply KD_nil].
  Qed.
  Lemma Modifier_K l x : at_ l -> new_Modifier l = Ok x -> KK Modifier x.
  Proof.
    intros T H. pose proof (proj1 T) as P. unfold new_Modifier in H. apply bind_inv in H as (? & _ & H).
    apply bind_inv in H as (c & _ & H). apply bind_inv in H as (s & E & H). injection H as <-.
    unfold KK. cbn [pre post]. apply K1_nodeP. eapply KD_cons; [|apply KD_nil]. eapply K1_concat, KD_cons; [|apply KD_nil].
    unfold modifier_text in E. destruct (kind_in (kind c) _) eqn:Q.
    - injection E as <-. unfold kind_in in Q. apply existsb_exists in Q as (k & Hk & Q). apply String.eqb_eq in Q as ->.
      repeat (destruct Hk as [<-|Hk]; [apply K1_const; jtext|]). destruct Hk.
    - repeat match type of E with (if ?b then _ else _) = _ => destruct b end; try discriminate E;
        injection E as <-; apply K1_const; jtext.
  Qed.
  Lemma DmlType_K l x : at_ l -> new_DmlType l = Ok x -> KK DmlType x.
  Proof.
    intros T H. pose proof (proj1 T) as P. unfold new_DmlType in H. apply bind_inv in H as (? & _ & H).
    apply bind_inv in H as (c & _ & H). destruct (kind_in (kind c) _) eqn:Q; [|discriminate]. injection H as <-.
    unfold KK. cbn [pre post]. apply K1_nodeP. eapply KD_cons; [|apply KD_nil]. eapply K1_concat, KD_cons; [|apply KD_nil].
    unfold kind_in in Q. apply existsb_exists in Q as (k & Hk & Q). apply String.eqb_eq in Q as ->.
    repeat (destruct Hk as [<-|Hk]; [apply K1_const; jtext|]). destruct Hk.
  Qed.
  Lemma ScopedTypeIdentifier_K l x : at_ l -> new_ScopedTypeIdentifier rec l = Ok x -> KK ScopedTypeIdentifier x.
  Proof.
    intros T H. pose proof (proj1 T) as P. unfold new_ScopedTypeIdentifier in H. apply bind_inv in H as (? & _ & H).
    apply bind_inv in H as (p & E & H). sort_fact E. apply bind_inv in H as (ch & E1 & H).
    assert (C : K1 F ch V) by (split_new E1; (eapply K1_up; [j1|les])).
    apply bind_inv in H as (anns & _ & H). apply bind_inv in H as (tis & E2 & H). apply bind_inv in H as (ti & E3 & H).
    apply must_inv in E3. apply cs_k_inv in E2 as ->. injection H as <-.
    assert (T2 : at_ ti).
    { eapply at_kid; [exact P|]. apply (near_ks "type_identifier"). apply in_rev. destruct (rev (try_cs_by_k "type_identifier" l)); [discriminate|]. injection E3 as ->. left. reflexivity. }
    apply K1_nodeP. eapply KD_cons; [exact C|]. eapply KD_cons; [apply K1_const; jtext|].
    eapply (KD_app _ _ A); [apply K_gap; exact I|]. eapply KD_cons; [apply K1_value, T2|apply KD_nil].
  Qed.
  Lemma ForInitOption_K l x : at_ l -> new_ForInitOption rec l = Ok x -> KK ForInitOption x.
  Proof.
    intros T H. unfold new_ForInitOption in H. destruct (is_kind _ l).
    - split_new H; sort_done.
    - apply bind_inv in H as (p & E & H). apply must_inv in E. apply parent_pos in E; [|exact (proj1 T)]. clear T.
      split_new H; sort_done.
  Qed.
  Lemma ForStatement_K l x : at_ l -> new_ForStatement rec l = Ok x -> KK ForStatement x.
  Proof.
    intros T H. pose proof (proj1 T) as P. unfold new_ForStatement in H.
    apply bind_inv in H as (? & _ & H).
    apply bind_inv in H as (init & _ & H). apply bind_inv in H as (cond & _ & H). apply bind_inv in H as (upd & _ & H).
    apply bind_inv in H as (ps & _ & H). destruct (Nat.ltb _ _); [discriminate|].
    apply bind_inv in H as (bn & E4 & H). apply bind_inv in H as (body & E5 & H). sort_fact E4. sort_fact E5.
    assert (HT : forall ds, KK ForStatement (nodeP l ([t "for "; TGroup (surr ds sepML "(" LMaybe ")")] ++ loop_body bn body))).
    { intro ds. sort_done. }
    destruct (match init with [] => next_semicolon ps | i :: _ => (i, ps) end) as [d1 ps1] eqn:Q1.
    destruct (match cond with [] => next_semicolon ps1 | c :: _ => (TConcat [sp; c], ps1) end) as [d2 ps2] eqn:Q2.
    injection H as <-. apply HT.
  Qed.
  Lemma UpdateExpression_K l x : at_ l -> new_UpdateExpression rec l = Ok x -> KK UpdateExpression x.
  Proof.
    intros T H. pose proof (proj1 T) as P. unfold new_UpdateExpression in H. split_new H.
    destruct (n_sbyte _ <? n_sbyte _)%N; sort_done.
  Qed.
  Lemma UnaryExpression_K l x : at_ l -> new_UnaryExpression rec l = Ok x -> KK UnaryExpression x.
  Proof. intros T H. pose proof (proj1 T) as P. unfold new_UnaryExpression in H. split_new H. sort_done. Qed.
  Lemma ConstructorBody_K l x : at_ l -> new_ConstructorBody cm checked rec l = Ok x -> KK ConstructorBody x.
  Proof.
    intros T H. unfold new_ConstructorBody in H.
    apply bind_inv in H as (inv & _ & H). apply bind_inv in H as (stmts & _ & H). injection H as <-.
    eapply K1_node; [|apply KD_nil].
    assert (B : forall m, KD F ([t "{"] ++ m ++ [TIndent (TMembers stmts); NL; t "}"]) V).
    { intro m. pose proof (braced (m ++ [TIndent (TMembers stmts)])) as B. rewrite <- (app_assoc m) in B. exact B. }
    destruct inv as [[d tr]|]; [apply B|]. destruct stmts; [|apply (B [TIndent NL])].
    eapply KD_cons; [|apply KD_nil]. apply K1_concat. apply (braced []).
  Qed.
  Lemma ConstructInvocation_K l x : at_ l -> new_ConstructInvocation rec l = Ok x -> KK ConstructInvocation x.
  Proof. intros T H. pose proof (proj1 T) as P. unfold new_ConstructInvocation in H. split_new H; sort_done. Qed.
  Lemma AccessorList_K l x : at_ l -> new_AccessorList rec l = Ok x -> KK AccessorList x.
  Proof.
    intros T H. unfold new_AccessorList in H. apply bind_inv in H as (? & _ & H). apply bind_inv in H as (ns & _ & H).
    apply bind_inv in H as (ds & _ & H). injection H as <-. sort_done.
  Qed.

  Lemma inside s x : pre s = A -> post s = A -> KK s x.
  Proof. intros E1 E2. unfold KK. rewrite E1, E2. apply K_any. Qed.
  Theorem step_edges s l x : at_ l -> new_step cm checked rec s l = Ok x -> KK s x.
  Proof.
    intros T H. destruct s; try (apply inside; reflexivity); cbn [new_step] in H.
    all: try (exact (ClassDeclaration_K l x T H)).
    all: try (exact (MethodDeclaration_K l x T H)).
    all: try (exact (FormalParameters_K l x T H)).
    all: try (exact (FormalParameter_K l x T H)).
    all: try (exact (SuperClass_K l x T H)).
    all: try (exact (Annotation_K l x T H)).
    all: try (exact (AnnotationKeyValue_K l x T H)).
    all: try (exact (ClassBody_K l x T H)).
    all: try (exact (FieldDeclaration_K l x T H)).
    all: try (exact (ArrayInitializer_K l x T H)).
    all: try (exact (AssignmentExpression_K l x T H)).
    all: try (exact (AssignmentLeft_K l x T H)).
    all: try (exact (Block_K l x T H)).
    all: try (exact (Interface__K l x T H)).
    all: try (exact (ObjectExpression_K l x T H)).
    all: try (exact (MethodInvocation_K l x T H)).
    all: try (exact (TypeArguments_K l x T H)).
    all: try (exact (ArgumentList_K l x T H)).
    all: try (exact (BinaryExpression_K l x T H)).
    all: try (exact (LocalVariableDeclaration_K l x T H)).
    all: try (exact (VariableDeclarator_K l x T H)).
    all: try (exact (GenericType_K l x T H)).
    all: try (exact (IfStatement_K l x T H)).
    all: try (exact (ParenthesizedExpression_K l x T H)).
    all: try (exact (EnhancedForStatement_K l x T H)).
    all: try (exact (ConstructorDeclaration_K l x T H)).
    all: try (exact (TypeParameters_K l x T H)).
    all: try (exact (ObjectCreationExpression_K l x T H)).
    all: try (exact (RunAsStatement_K l x T H)).
    all: try (exact (DoStatement_K l x T H)).
    all: try (exact (WhileStatement_K l x T H)).
    all: try (exact (FieldAccess_K l x T H)).
    all: try (exact (EnumDeclaration_K l x T H)).
    all: try (exact (EnumBody_K l x T H)).
    all: try (exact (EnumConstant_K l x T H)).
    all: try (exact (DmlSecurityMode_K l x T H)).
    all: try (exact (DmlExpression_K l x T H)).
    all: try (exact (ArrayAccess_K l x T H)).
    all: try (exact (ArrayCreationExpression_K l x T H)).
    all: try (exact (DimensionsExpr_K l x T H)).
    all: try (exact (ReturnStatement_K l x T H)).
    all: try (exact (TernaryExpression_K l x T H)).
    all: try (exact (TryStatement_K l x T H)).
    all: try (exact (CatchClause_K l x T H)).
    all: try (exact (FinallyClause_K l x T H)).
    all: try (exact (StaticInitializer_K l x T H)).
    all: try (exact (InterfaceDeclaration_K l x T H)).
    all: try (exact (InterfaceBody_K l x T H)).
    all: try (exact (InterfaceMember_K l x T H)).
    all: try (exact (ConstantDeclaration_K l x T H)).
    all: try (exact (AccessorDeclaration_K l x T H)).
    all: try (exact (CastExpression_K l x T H)).
    all: try (exact (ThrowStatement_K l x T H)).
    all: try (exact (BreakStatement_K l x T H)).
    all: try (exact (ContinueStatement_K l x T H)).
    all: try (exact (SwitchExpression_K l x T H)).
    all: try (exact (SwitchBlock_K l x T H)).
    all: try (exact (SwitchRule_K l x T H)).
    all: try (exact (SwitchLabel_K l x T H)).
    all: try (exact (InstanceOfExpression_K l x T H)).
    all: try (exact (VersionExpression_K l x T H)).
    all: try (exact (JavaFieldAccess_K l x T H)).
    all: try (exact (JavaType_K l x T H)).
    all: try (exact (ArrayType_K l x T H)).
    all: try (exact (TriggerDeclaration_K l x T H)).
    all: try (exact (TriggerBody_K l x T H)).
    all: try (exact (QueryExpression_K l x T H)).
    all: try (exact (InClause_K l x T H)).
    all: try (exact (LimitClause_K l x T H)).
    all: try (exact (BoundApexExpression_K l x T H)).
    all: try (exact (SoslUsingClause_K l x T H)).
    all: try (exact (UsingScopeClause_K l x T H)).
    all: try (exact (UsingListviewClause_K l x T H)).
    all: try (exact (ComparableList_K l x T H)).
    all: try (exact (SubQuery_K l x T H)).
    all: try (exact (MapCreationExpression_K l x T H)).
    all: try (exact (MapInitializer_K l x T H)).
    all: try (exact (SoqlWithClause_K l x T H)).
    all: try (exact (SoqlWithType_K l x T H)).
    all: try (exact (WithDivisionExpression_K l x T H)).
    all: try (exact (WithSnippetExpression_K l x T H)).
    all: try (exact (WithMetadataExpression_K l x T H)).
    all: try (exact (WithSpellCorrectionExpression_K l x T H)).
    all: try (exact (WithPriceBookExpression_K l x T H)).
    all: try (exact (ExpressionStatement_K l x T H)).
    all: try (exact (CountExpression_K l x T H)).
    all: try (exact (ForClause_K l x T H)).
    all: try (exact (RootMember_K l x T H)).
    all: try (exact (ClassMember_K l x T H)).
    all: try (exact (UnannotatedType_K l x T H)).
    all: try (exact (SimpleType_K l x T H)).
    all: try (exact (VariableInitializer_K l x T H)).
    all: try (exact (Expression_K l x T H)).
    all: try (exact (PrimaryExpression_K l x T H)).
    all: try (exact (ClassLiteral_K l x T H)).
    all: try (exact (Statement_K l x T H)).
    all: try (exact (Type__K l x T H)).
    all: try (exact (FieldsExpression_K l x T H)).
    all: try (exact (LimitValue_K l x T H)).
    all: try (exact (SetValue_K l x T H)).
    all: try (exact (OffsetClause_K l x T H)).
    all: try (exact (Modifiers_K l x T H)).
    all: try (exact (Modifier_K l x T H)).
    all: try (exact (DmlType_K l x T H)).
    all: try (exact (ScopedTypeIdentifier_K l x T H)).
    all: try (exact (ForInitOption_K l x T H)).
    all: try (exact (ForStatement_K l x T H)).
    all: try (exact (UpdateExpression_K l x T H)).
    all: try (exact (UnaryExpression_K l x T H)).
    all: try (exact (ConstructorBody_K l x T H)).
    all: try (exact (ConstructInvocation_K l x T H)).
    all: try (exact (AccessorList_K l x T H)).
  Qed.
End Sorts.

Theorem new_edges root cm checked fuel : solid root ->
  forall s l x, at_ root l -> new cm checked fuel s l = Ok x -> KK s x.
Proof.
  intro S. induction fuel as [|k IH]; intros s l x T H; [discriminate|].
  exact (step_edges root S cm checked (new cm checked k) IH s l x T H).
Qed.
