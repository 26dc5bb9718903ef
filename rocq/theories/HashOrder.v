(* HashOrder.v: the formatter with the comment map as a hash map, whose entries
   are met in an order that changes from run to run. *)
From Verif Require Import Base Doc DocBuilder Cst Comments Term New Formatter.

(* src/utility.rs:122-141 with src/context.rs:14 (CommentMap = HashMap<usize,
   CommentBucket>).  [order] is the order in which this run's hash seed lists the
   entries.  The lines are those written to stderr for the comments that were not
   printed (without the colour codes).  Simplification: [order] is applied once to
   the finished map; insertion order cannot be observed otherwise. *)
Definition format_tree_hashed (order : cmap -> cmap) (checked : bool) (stack : nat) (cfg : config) (root : node)
  : list ustr * res ustr :=
  match collect_comments root with
  | Ok collected =>
      let cm := order collected in
      match (d <- new cm checked stack Root (root_loc root) ;;
             b <- PrettyConfig_new (cfg_indent_size cfg) ;;
             run cm b d) with
      | Ok built =>
          let out := pretty_print (fst built) (max_width cfg) in
          let missing := missing_comments cm (snd built) in
          (map (fun c => (U "Erased comment: " ++ c_value c)%list) missing,
           if is_nil missing then Ok out else Panic "## There are erased comment node(s)")
      | Panic y => ([], Panic y)
      | Overflow => ([], Overflow)
      end
  | Panic y => ([], Panic y)
  | Overflow => ([], Overflow)
  end.
