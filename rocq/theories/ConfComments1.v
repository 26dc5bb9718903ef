(* Written by conformance/gen.py. Each Example is one test of the project: the source is the text
   of the .in file named above it, the tree is the one conformance/apex.py reads from that text, and
   the expected text is the .cls file beside it. tests/test.rs runs the same comparison. *)
From Coq Require Import List String NArith.
From Verif Require Import Base Cst ConfTrees.
Import ListNotations.
Local Open Scope string_scope.
Local Open Scope list_scope.

(* tests/comments/BlockTrailingCommentAfterEnum.in *)
Definition comments_BlockTrailingCommentAfterEnum_source : ustr := U "enum Season { /* Block Comment */

}
".
Definition comments_BlockTrailingCommentAfterEnum_tree : span := (B "parser_output" 1 0 37 0 3 [(B "enum_declaration" 2 0 36 0 2 [(A "enum" 3 0 4 0 0 []); (B "identifier" 4 5 11 0 0 [] # "name"); (B "enum_body" 5 12 36 0 2 [(A "{" 6 12 13 0 0 []); (C "block_comment" 7 14 33 0 0 []); (A "}" 8 35 36 2 2 [])] # "body")])]).
Example comments_BlockTrailingCommentAfterEnum : as_expected comments_BlockTrailingCommentAfterEnum_source comments_BlockTrailingCommentAfterEnum_tree (U "enum Season {
  /* Block Comment */
}
").
Proof. apply run_test_ok. vm_compute. reflexivity. Qed.

(* tests/comments/BlockTrailingCommentAfterInterface.in *)
Definition comments_BlockTrailingCommentAfterInterface_source : ustr := U "interface InlineTrailingCommentAfterInterface { // Inline Comment

}
".
Definition comments_BlockTrailingCommentAfterInterface_tree : span := (B "parser_output" 1 0 69 0 3 [(B "interface_declaration" 2 0 68 0 2 [(A "interface" 3 0 9 0 0 []); (B "identifier" 4 10 45 0 0 [] # "name"); (B "interface_body" 5 46 68 0 2 [(A "{" 6 46 47 0 0 []); (C "line_comment" 7 48 65 0 0 []); (A "}" 8 67 68 2 2 [])] # "body")])]).
Example comments_BlockTrailingCommentAfterInterface : as_expected comments_BlockTrailingCommentAfterInterface_source comments_BlockTrailingCommentAfterInterface_tree (U "interface InlineTrailingCommentAfterInterface {
  // Inline Comment
}
").
Proof. apply run_test_ok. vm_compute. reflexivity. Qed.

(* tests/comments/BlockTrailingCommentAfterTrigger.in *)
Definition comments_BlockTrailingCommentAfterTrigger_source : ustr := U "trigger InlineTrailingCommentAfterTrigger on Account(after insert) { /* Block Comment */

}
".
Definition comments_BlockTrailingCommentAfterTrigger_tree : span := (B "parser_output" 1 0 92 0 3 [(B "trigger_declaration" 2 0 91 0 2 [(A "trigger" 3 0 7 0 0 []); (B "identifier" 4 8 41 0 0 [] # "name"); (A "on" 5 42 44 0 0 []); (B "identifier" 6 45 52 0 0 [] # "object"); (A "(" 7 52 53 0 0 []); (B "trigger_event" 8 53 65 0 0 [(B "after_insert" 9 53 65 0 0 [(A "after" 10 53 58 0 0 []); (A "insert" 11 59 65 0 0 [])])]); (A ")" 12 65 66 0 0 []); (B "trigger_body" 13 67 91 0 2 [(B "block" 14 67 91 0 2 [(A "{" 15 67 68 0 0 []); (C "block_comment" 16 69 88 0 0 []); (A "}" 17 90 91 2 2 [])])] # "body")])]).
Example comments_BlockTrailingCommentAfterTrigger : as_expected comments_BlockTrailingCommentAfterTrigger_source comments_BlockTrailingCommentAfterTrigger_tree (U "trigger InlineTrailingCommentAfterTrigger on Account(after insert) {
  /* Block Comment */
}
").
Proof. apply run_test_ok. vm_compute. reflexivity. Qed.

(* tests/comments/ClassDeclarationWithBlockComment.in *)
Definition comments_ClassDeclarationWithBlockComment_source : ustr := U "class ClassDeclarationWithBlockComment {
}
/* Test comment */
".
Definition comments_ClassDeclarationWithBlockComment_tree : span := (B "parser_output" 1 0 62 0 3 [(B "class_declaration" 2 0 42 0 1 [(A "class" 3 0 5 0 0 []); (B "identifier" 4 6 38 0 0 [] # "name"); (B "class_body" 5 39 42 0 1 [(A "{" 6 39 40 0 0 []); (A "}" 7 41 42 1 1 [])] # "body")]); (C "block_comment" 8 43 61 2 2 [])]).
Example comments_ClassDeclarationWithBlockComment : as_expected comments_ClassDeclarationWithBlockComment_source comments_ClassDeclarationWithBlockComment_tree (U "class ClassDeclarationWithBlockComment {
}
/* Test comment */
").
Proof. apply run_test_ok. vm_compute. reflexivity. Qed.

(* tests/comments/ClassDeclarationWithInlineComment.in *)
Definition comments_ClassDeclarationWithInlineComment_source : ustr := U "class ClassDeclarationWithInlineComment {
}
// Test comment
".
Definition comments_ClassDeclarationWithInlineComment_tree : span := (B "parser_output" 1 0 60 0 3 [(B "class_declaration" 2 0 43 0 1 [(A "class" 3 0 5 0 0 []); (B "identifier" 4 6 39 0 0 [] # "name"); (B "class_body" 5 40 43 0 1 [(A "{" 6 40 41 0 0 []); (A "}" 7 42 43 1 1 [])] # "body")]); (C "line_comment" 8 44 59 2 2 [])]).
Example comments_ClassDeclarationWithInlineComment : as_expected comments_ClassDeclarationWithInlineComment_source comments_ClassDeclarationWithInlineComment_tree (U "class ClassDeclarationWithInlineComment {
}
// Test comment
").
Proof. apply run_test_ok. vm_compute. reflexivity. Qed.

(* tests/comments/ClassDeclarationWithMixedComments.in *)
Definition comments_ClassDeclarationWithMixedComments_source : ustr := U "class ClassDeclarationWithMixedComments {
}    // Trailing Comment
            /* Block comment 1 */
      // Another Trailing Comment
".
Definition comments_ClassDeclarationWithMixedComments_tree : span := (B "parser_output" 1 0 135 0 4 [(B "class_declaration" 2 0 43 0 1 [(A "class" 3 0 5 0 0 []); (B "identifier" 4 6 39 0 0 [] # "name"); (B "class_body" 5 40 43 0 1 [(A "{" 6 40 41 0 0 []); (A "}" 7 42 43 1 1 [])] # "body")]); (C "line_comment" 8 47 66 1 1 []); (C "block_comment" 9 79 100 2 2 []); (C "line_comment" 10 107 134 3 3 [])]).
Example comments_ClassDeclarationWithMixedComments : as_expected comments_ClassDeclarationWithMixedComments_source comments_ClassDeclarationWithMixedComments_tree (U "class ClassDeclarationWithMixedComments {
} // Trailing Comment
/* Block comment 1 */
// Another Trailing Comment
").
Proof. apply run_test_ok. vm_compute. reflexivity. Qed.

(* tests/comments/CommentsBeforeInterfaceDeclaration.in *)
Definition comments_CommentsBeforeInterfaceDeclaration_source : ustr := U "// First Test Comment

/*
* First ApexDoc
*/
interface CommentsBeforeInterfaceDeclaration {

}
".
Definition comments_CommentsBeforeInterfaceDeclaration_tree : span := (B "parser_output" 1 0 95 0 8 [(C "line_comment" 2 0 21 0 0 []); (C "block_comment" 3 23 44 2 4 []); (B "interface_declaration" 4 45 94 5 7 [(A "interface" 5 45 54 5 5 []); (B "identifier" 6 55 89 5 5 [] # "name"); (B "interface_body" 7 90 94 5 7 [(A "{" 8 90 91 5 5 []); (A "}" 9 93 94 7 7 [])] # "body")])]).
Example comments_CommentsBeforeInterfaceDeclaration : as_expected comments_CommentsBeforeInterfaceDeclaration_source comments_CommentsBeforeInterfaceDeclaration_tree (U "// First Test Comment

/*
* First ApexDoc
*/
interface CommentsBeforeInterfaceDeclaration {
}
").
Proof. apply run_test_ok. vm_compute. reflexivity. Qed.

(* tests/comments/CommentsBeforeTriggerDeclaration.in *)
Definition comments_CommentsBeforeTriggerDeclaration_source : ustr := U "// First Test Comment

/**
* First ApexDoc
*/
trigger Case_trg on Case(before update) {
  System.debug('SOMETHING');
}
".
Definition comments_CommentsBeforeTriggerDeclaration_tree : span := (B "parser_output" 1 0 119 0 8 [(C "line_comment" 2 0 21 0 0 []); (C "block_comment" 3 23 45 2 4 []); (B "trigger_declaration" 4 46 118 5 7 [(A "trigger" 5 46 53 5 5 []); (B "identifier" 6 54 62 5 5 [] # "name"); (A "on" 7 63 65 5 5 []); (B "identifier" 8 66 70 5 5 [] # "object"); (A "(" 9 70 71 5 5 []); (B "trigger_event" 10 71 84 5 5 [(B "before_update" 11 71 84 5 5 [(A "before" 12 71 77 5 5 []); (A "update" 13 78 84 5 5 [])])]); (A ")" 14 84 85 5 5 []); (B "trigger_body" 15 86 118 5 7 [(B "block" 16 86 118 5 7 [(A "{" 17 86 87 5 5 []); (B "expression_statement" 18 90 116 6 6 [(B "method_invocation" 19 90 115 6 6 [(B "identifier" 20 90 96 6 6 [] # "object"); (A "." 21 96 97 6 6 []); (B "identifier" 22 97 102 6 6 [] # "name"); (B "argument_list" 23 102 115 6 6 [(A "(" 24 102 103 6 6 []); (B "string_literal" 25 103 114 6 6 []); (A ")" 26 114 115 6 6 [])] # "arguments")]); (A ";" 27 115 116 6 6 [])]); (A "}" 28 117 118 7 7 [])])] # "body")])]).
Example comments_CommentsBeforeTriggerDeclaration : as_expected comments_CommentsBeforeTriggerDeclaration_source comments_CommentsBeforeTriggerDeclaration_tree (U "// First Test Comment

/**
 * First ApexDoc
 */
trigger Case_trg on Case(before update) {
  System.debug('SOMETHING');
}
").
Proof. apply run_test_ok. vm_compute. reflexivity. Qed.

(* tests/comments/CommentsDanglingInBlockStatement.in *)
Definition comments_CommentsDanglingInBlockStatement_source : ustr := U "class CommentDanglingInBlockStatement {
  public void emptyMethod() {
    // Inline Comment

    /* Block Comment */


    // Second Inline Comment
    /* Second Block Comment */

  }
}
".
Definition comments_CommentsDanglingInBlockStatement_tree : span := (B "parser_output" 1 0 186 0 12 [(B "class_declaration" 2 0 185 0 11 [(A "class" 3 0 5 0 0 []); (B "identifier" 4 6 37 0 0 [] # "name"); (B "class_body" 5 38 185 0 11 [(A "{" 6 38 39 0 0 []); (B "method_declaration" 7 42 183 1 10 [(B "modifiers" 8 42 48 1 1 [(B "modifier" 9 42 48 1 1 [(B "public" 10 42 48 1 1 [(A "public" 11 42 48 1 1 [])])])]); (B "void_type" 12 49 53 1 1 [] # "type"); (B "identifier" 13 54 65 1 1 [] # "name"); (B "formal_parameters" 14 65 67 1 1 [(A "(" 15 65 66 1 1 []); (A ")" 16 66 67 1 1 [])] # "parameters"); (B "block" 17 68 183 1 10 [(A "{" 18 68 69 1 1 []); (C "line_comment" 19 74 91 2 2 []); (C "block_comment" 20 97 116 4 4 []); (C "line_comment" 21 123 147 7 7 []); (C "block_comment" 22 152 178 8 8 []); (A "}" 23 182 183 10 10 [])] # "body")]); (A "}" 24 184 185 11 11 [])] # "body")])]).
Example comments_CommentsDanglingInBlockStatement : as_expected comments_CommentsDanglingInBlockStatement_source comments_CommentsDanglingInBlockStatement_tree (U "class CommentDanglingInBlockStatement {
  public void emptyMethod() {
    // Inline Comment

    /* Block Comment */

    // Second Inline Comment
    /* Second Block Comment */
  }
}
").
Proof. apply run_test_ok. vm_compute. reflexivity. Qed.

(* tests/comments/CommentsDanglingInClass.in *)
Definition comments_CommentsDanglingInClass_source : ustr := U "class DanglingCommentsInClass {
  // Inline Comment

  /* Block Comment */


  // Second Inline Comment
  /* Second Block Comment */

}
".
Definition comments_CommentsDanglingInClass_tree : span := (B "parser_output" 1 0 136 0 10 [(B "class_declaration" 2 0 135 0 9 [(A "class" 3 0 5 0 0 []); (B "identifier" 4 6 29 0 0 [] # "name"); (B "class_body" 5 30 135 0 9 [(A "{" 6 30 31 0 0 []); (C "line_comment" 7 34 51 1 1 []); (C "block_comment" 8 55 74 3 3 []); (C "line_comment" 9 79 103 6 6 []); (C "block_comment" 10 106 132 7 7 []); (A "}" 11 134 135 9 9 [])] # "body")])]).
Example comments_CommentsDanglingInClass : as_expected comments_CommentsDanglingInClass_source comments_CommentsDanglingInClass_tree (U "class DanglingCommentsInClass {
  // Inline Comment

  /* Block Comment */

  // Second Inline Comment
  /* Second Block Comment */
}
").
Proof. apply run_test_ok. vm_compute. reflexivity. Qed.

(* tests/comments/CommentsDanglingInEnum.in *)
Definition comments_CommentsDanglingInEnum_source : ustr := U "enum DanglingCommentsInEnum {
  // Inline Comment

  /* Block Comment */


  // Second Inline Comment
  /* Second Block Comment */

}
".
Definition comments_CommentsDanglingInEnum_tree : span := (B "parser_output" 1 0 134 0 10 [(B "enum_declaration" 2 0 133 0 9 [(A "enum" 3 0 4 0 0 []); (B "identifier" 4 5 27 0 0 [] # "name"); (B "enum_body" 5 28 133 0 9 [(A "{" 6 28 29 0 0 []); (C "line_comment" 7 32 49 1 1 []); (C "block_comment" 8 53 72 3 3 []); (C "line_comment" 9 77 101 6 6 []); (C "block_comment" 10 104 130 7 7 []); (A "}" 11 132 133 9 9 [])] # "body")])]).
Example comments_CommentsDanglingInEnum : as_expected comments_CommentsDanglingInEnum_source comments_CommentsDanglingInEnum_tree (U "enum DanglingCommentsInEnum {
  // Inline Comment

  /* Block Comment */

  // Second Inline Comment
  /* Second Block Comment */
}
").
Proof. apply run_test_ok. vm_compute. reflexivity. Qed.

(* tests/comments/CommentsDanglingInInterface.in *)
Definition comments_CommentsDanglingInInterface_source : ustr := U "interface DanglingCommentsInInterface {
  // Inline Comment

  /* Block Comment */


  // Second Inline Comment
  /* Second Block Comment */

}
".
Definition comments_CommentsDanglingInInterface_tree : span := (B "parser_output" 1 0 144 0 10 [(B "interface_declaration" 2 0 143 0 9 [(A "interface" 3 0 9 0 0 []); (B "identifier" 4 10 37 0 0 [] # "name"); (B "interface_body" 5 38 143 0 9 [(A "{" 6 38 39 0 0 []); (C "line_comment" 7 42 59 1 1 []); (C "block_comment" 8 63 82 3 3 []); (C "line_comment" 9 87 111 6 6 []); (C "block_comment" 10 114 140 7 7 []); (A "}" 11 142 143 9 9 [])] # "body")])]).
Example comments_CommentsDanglingInInterface : as_expected comments_CommentsDanglingInInterface_source comments_CommentsDanglingInInterface_tree (U "interface DanglingCommentsInInterface {
  // Inline Comment

  /* Block Comment */

  // Second Inline Comment
  /* Second Block Comment */
}
").
Proof. apply run_test_ok. vm_compute. reflexivity. Qed.

(* tests/comments/CommentsDanglingInTrigger.in *)
Definition comments_CommentsDanglingInTrigger_source : ustr := U "trigger myAccountTrigger on Account(before delete) {
  // Inline Comment

  /* Block Comment */


  // Second Inline Comment
  /* Second Block Comment */

}
".
Definition comments_CommentsDanglingInTrigger_tree : span := (B "parser_output" 1 0 157 0 10 [(B "trigger_declaration" 2 0 156 0 9 [(A "trigger" 3 0 7 0 0 []); (B "identifier" 4 8 24 0 0 [] # "name"); (A "on" 5 25 27 0 0 []); (B "identifier" 6 28 35 0 0 [] # "object"); (A "(" 7 35 36 0 0 []); (B "trigger_event" 8 36 49 0 0 [(B "before_delete" 9 36 49 0 0 [(A "before" 10 36 42 0 0 []); (A "delete" 11 43 49 0 0 [])])]); (A ")" 12 49 50 0 0 []); (B "trigger_body" 13 51 156 0 9 [(B "block" 14 51 156 0 9 [(A "{" 15 51 52 0 0 []); (C "line_comment" 16 55 72 1 1 []); (C "block_comment" 17 76 95 3 3 []); (C "line_comment" 18 100 124 6 6 []); (C "block_comment" 19 127 153 7 7 []); (A "}" 20 155 156 9 9 [])])] # "body")])]).
Example comments_CommentsDanglingInTrigger : as_expected comments_CommentsDanglingInTrigger_source comments_CommentsDanglingInTrigger_tree (U "trigger myAccountTrigger on Account(before delete) {
  // Inline Comment

  /* Block Comment */

  // Second Inline Comment
  /* Second Block Comment */
}
").
Proof. apply run_test_ok. vm_compute. reflexivity. Qed.

(* tests/comments/InlineTrailingCommentAferEnum.in *)
Definition comments_InlineTrailingCommentAferEnum_source : ustr := U "enum Season { // Inline Comment

}
".
Definition comments_InlineTrailingCommentAferEnum_tree : span := (B "parser_output" 1 0 35 0 3 [(B "enum_declaration" 2 0 34 0 2 [(A "enum" 3 0 4 0 0 []); (B "identifier" 4 5 11 0 0 [] # "name"); (B "enum_body" 5 12 34 0 2 [(A "{" 6 12 13 0 0 []); (C "line_comment" 7 14 31 0 0 []); (A "}" 8 33 34 2 2 [])] # "body")])]).
Example comments_InlineTrailingCommentAferEnum : as_expected comments_InlineTrailingCommentAferEnum_source comments_InlineTrailingCommentAferEnum_tree (U "enum Season {
  // Inline Comment
}
").
Proof. apply run_test_ok. vm_compute. reflexivity. Qed.

(* tests/comments/InlineTrailingCommentAfterClass.in *)
Definition comments_InlineTrailingCommentAfterClass_source : ustr := U "class InlineTrailingCommentsAfterClass { // Inline Comment
  public InlineTrailingCommentsAfterClass() {}
}
".
Definition comments_InlineTrailingCommentAfterClass_tree : span := (B "parser_output" 1 0 108 0 3 [(B "class_declaration" 2 0 107 0 2 [(A "class" 3 0 5 0 0 []); (B "identifier" 4 6 38 0 0 [] # "name"); (B "class_body" 5 39 107 0 2 [(A "{" 6 39 40 0 0 []); (C "line_comment" 7 41 58 0 0 []); (B "constructor_declaration" 8 61 105 1 1 [(B "modifiers" 9 61 67 1 1 [(B "modifier" 10 61 67 1 1 [(B "public" 11 61 67 1 1 [(A "public" 12 61 67 1 1 [])])])]); (B "identifier" 13 68 100 1 1 [] # "name"); (B "formal_parameters" 14 100 102 1 1 [(A "(" 15 100 101 1 1 []); (A ")" 16 101 102 1 1 [])] # "parameters"); (B "constructor_body" 17 103 105 1 1 [(A "{" 18 103 104 1 1 []); (A "}" 19 104 105 1 1 [])] # "body")]); (A "}" 20 106 107 2 2 [])] # "body")])]).
Example comments_InlineTrailingCommentAfterClass : as_expected comments_InlineTrailingCommentAfterClass_source comments_InlineTrailingCommentAfterClass_tree (U "class InlineTrailingCommentsAfterClass {
  // Inline Comment
  public InlineTrailingCommentsAfterClass() {
  }
}
").
Proof. apply run_test_ok. vm_compute. reflexivity. Qed.

(* tests/comments/InlineTrailingCommentAfterInterface.in *)
Definition comments_InlineTrailingCommentAfterInterface_source : ustr := U "interface BlockTrailingCommentAfterInterface { /* Block Comment */

}
".
Definition comments_InlineTrailingCommentAfterInterface_tree : span := (B "parser_output" 1 0 70 0 3 [(B "interface_declaration" 2 0 69 0 2 [(A "interface" 3 0 9 0 0 []); (B "identifier" 4 10 44 0 0 [] # "name"); (B "interface_body" 5 45 69 0 2 [(A "{" 6 45 46 0 0 []); (C "block_comment" 7 47 66 0 0 []); (A "}" 8 68 69 2 2 [])] # "body")])]).
Example comments_InlineTrailingCommentAfterInterface : as_expected comments_InlineTrailingCommentAfterInterface_source comments_InlineTrailingCommentAfterInterface_tree (U "interface BlockTrailingCommentAfterInterface {
  /* Block Comment */
}
").
Proof. apply run_test_ok. vm_compute. reflexivity. Qed.

(* tests/comments/InlineTrailingCommentAfterTrigger.in *)
Definition comments_InlineTrailingCommentAfterTrigger_source : ustr := U "trigger InlineTrailingCommentAfterTrigger on Account(after insert) { // Inline Comment

}
".
Definition comments_InlineTrailingCommentAfterTrigger_tree : span := (B "parser_output" 1 0 90 0 3 [(B "trigger_declaration" 2 0 89 0 2 [(A "trigger" 3 0 7 0 0 []); (B "identifier" 4 8 41 0 0 [] # "name"); (A "on" 5 42 44 0 0 []); (B "identifier" 6 45 52 0 0 [] # "object"); (A "(" 7 52 53 0 0 []); (B "trigger_event" 8 53 65 0 0 [(B "after_insert" 9 53 65 0 0 [(A "after" 10 53 58 0 0 []); (A "insert" 11 59 65 0 0 [])])]); (A ")" 12 65 66 0 0 []); (B "trigger_body" 13 67 89 0 2 [(B "block" 14 67 89 0 2 [(A "{" 15 67 68 0 0 []); (C "line_comment" 16 69 86 0 0 []); (A "}" 17 88 89 2 2 [])])] # "body")])]).
Example comments_InlineTrailingCommentAfterTrigger : as_expected comments_InlineTrailingCommentAfterTrigger_source comments_InlineTrailingCommentAfterTrigger_tree (U "trigger InlineTrailingCommentAfterTrigger on Account(after insert) {
  // Inline Comment
}
").
Proof. apply run_test_ok. vm_compute. reflexivity. Qed.

(* tests/comments/all_comments.in *)
Definition comments_all_comments_source : ustr := U "
  // pre1

/*
pre2
  */

Class A{ // d0
// d1

/*
d2
*/
}

//p1

/*p2*/
".
Definition comments_all_comments_tree : span := (B "parser_output" 1 3 73 1 18 [(C "line_comment" 2 3 10 1 1 []); (C "block_comment" 3 12 24 3 5 []); (B "class_declaration" 4 26 58 7 13 [(A "class" 5 26 31 7 7 []); (B "identifier" 6 32 33 7 7 [] # "name"); (B "class_body" 7 33 58 7 13 [(A "{" 8 33 34 7 7 []); (C "line_comment" 9 35 40 7 7 []); (C "line_comment" 10 41 46 8 8 []); (C "block_comment" 11 48 56 10 12 []); (A "}" 12 57 58 13 13 [])] # "body")]); (C "line_comment" 13 60 64 15 15 []); (C "block_comment" 14 66 72 17 17 [])]).
Example comments_all_comments : as_expected comments_all_comments_source comments_all_comments_tree (U "// pre1

/*
pre2
*/

class A {
  // d0
  // d1

  /*
  d2
  */
}

//p1

/*p2*/
").
Proof. apply run_test_ok. vm_compute. reflexivity. Qed.

(* tests/comments/annotation_comment.in *)
Definition comments_annotation_comment_source : ustr := U "class A {
  @TestVisible
  // comment1
  private String s;

  @TestVisible // comment2
  private String s;

  @TestVisible
  /* b_comment1 */
  private String s;

  @TestVisible
  /* b_comment2 */ private String s;
}
".
Definition comments_annotation_comment_tree : span := (B "parser_output" 1 0 217 0 15 [(B "class_declaration" 2 0 216 0 14 [(A "class" 3 0 5 0 0 []); (B "identifier" 4 6 7 0 0 [] # "name"); (B "class_body" 5 8 216 0 14 [(A "{" 6 8 9 0 0 []); (B "field_declaration" 7 12 58 1 3 [(B "modifiers" 8 12 48 1 3 [(B "annotation" 9 12 24 1 1 [(A "@" 10 12 13 1 1 []); (B "identifier" 11 13 24 1 1 [] # "name")]); (C "line_comment" 12 27 38 2 2 []); (B "modifier" 13 41 48 3 3 [(B "private" 14 41 48 3 3 [(A "private" 15 41 48 3 3 [])])])]); (B "type_identifier" 16 49 55 3 3 [] # "type"); (B "variable_declarator" 17 56 57 3 3 [(B "identifier" 18 56 57 3 3 [] # "name")] # "declarator"); (A ";" 19 57 58 3 3 [])]); (B "field_declaration" 20 62 106 5 6 [(B "modifiers" 21 62 96 5 6 [(B "annotation" 22 62 74 5 5 [(A "@" 23 62 63 5 5 []); (B "identifier" 24 63 74 5 5 [] # "name")]); (C "line_comment" 25 75 86 5 5 []); (B "modifier" 26 89 96 6 6 [(B "private" 27 89 96 6 6 [(A "private" 28 89 96 6 6 [])])])]); (B "type_identifier" 29 97 103 6 6 [] # "type"); (B "variable_declarator" 30 104 105 6 6 [(B "identifier" 31 104 105 6 6 [] # "name")] # "declarator"); (A ";" 32 105 106 6 6 [])]); (B "field_declaration" 33 110 161 8 10 [(B "modifiers" 34 110 151 8 10 [(B "annotation" 35 110 122 8 8 [(A "@" 36 110 111 8 8 []); (B "identifier" 37 111 122 8 8 [] # "name")]); (C "block_comment" 38 125 141 9 9 []); (B "modifier" 39 144 151 10 10 [(B "private" 40 144 151 10 10 [(A "private" 41 144 151 10 10 [])])])]); (B "type_identifier" 42 152 158 10 10 [] # "type"); (B "variable_declarator" 43 159 160 10 10 [(B "identifier" 44 159 160 10 10 [] # "name")] # "declarator"); (A ";" 45 160 161 10 10 [])]); (B "field_declaration" 46 165 214 12 13 [(B "modifiers" 47 165 204 12 13 [(B "annotation" 48 165 177 12 12 [(A "@" 49 165 166 12 12 []); (B "identifier" 50 166 177 12 12 [] # "name")]); (C "block_comment" 51 180 196 13 13 []); (B "modifier" 52 197 204 13 13 [(B "private" 53 197 204 13 13 [(A "private" 54 197 204 13 13 [])])])]); (B "type_identifier" 55 205 211 13 13 [] # "type"); (B "variable_declarator" 56 212 213 13 13 [(B "identifier" 57 212 213 13 13 [] # "name")] # "declarator"); (A ";" 58 213 214 13 13 [])]); (A "}" 59 215 216 14 14 [])] # "body")])]).
Example comments_annotation_comment : as_expected comments_annotation_comment_source comments_annotation_comment_tree (U "class A {
  @TestVisible
  // comment1
  private String s;

  @TestVisible // comment2
  private String s;

  @TestVisible
  /* b_comment1 */
  private String s;

  @TestVisible
  /* b_comment2 */ private String s;
}
").
Proof. apply run_test_ok. vm_compute. reflexivity. Qed.

(* tests/comments/before_bracket.in *)
Definition comments_before_bracket_source : ustr := U "trigger InlineTrailingCommentAfterTrigger on Account(
  before insert,
  after insert /* Block Comment */
) {
}
".
Definition comments_before_bracket_tree : span := (B "parser_output" 1 0 112 0 5 [(B "trigger_declaration" 2 0 111 0 4 [(A "trigger" 3 0 7 0 0 []); (B "identifier" 4 8 41 0 0 [] # "name"); (A "on" 5 42 44 0 0 []); (B "identifier" 6 45 52 0 0 [] # "object"); (A "(" 7 52 53 0 0 []); (B "trigger_event" 8 56 69 1 1 [(B "before_insert" 9 56 69 1 1 [(A "before" 10 56 62 1 1 []); (A "insert" 11 63 69 1 1 [])])]); (A "," 12 69 70 1 1 []); (B "trigger_event" 13 73 85 2 2 [(B "after_insert" 14 73 85 2 2 [(A "after" 15 73 78 2 2 []); (A "insert" 16 79 85 2 2 [])])]); (C "block_comment" 17 86 105 2 2 []); (A ")" 18 106 107 3 3 []); (B "trigger_body" 19 108 111 3 4 [(B "block" 20 108 111 3 4 [(A "{" 21 108 109 3 3 []); (A "}" 22 110 111 4 4 [])])] # "body")])]).
Example comments_before_bracket : as_expected comments_before_bracket_source comments_before_bracket_tree (U "trigger InlineTrailingCommentAfterTrigger on Account(
  before insert,
  after insert /* Block Comment */
) {
}
").
Proof. apply run_test_ok. vm_compute. reflexivity. Qed.

(* tests/comments/block_c2.in *)
Definition comments_block_c2_source : ustr := U "trigger InlineTrailingCommentAfterTrigger on Account(after insert)  { /* Block Comment */
}
".
Definition comments_block_c2_tree : span := (B "parser_output" 1 0 92 0 2 [(B "trigger_declaration" 2 0 91 0 1 [(A "trigger" 3 0 7 0 0 []); (B "identifier" 4 8 41 0 0 [] # "name"); (A "on" 5 42 44 0 0 []); (B "identifier" 6 45 52 0 0 [] # "object"); (A "(" 7 52 53 0 0 []); (B "trigger_event" 8 53 65 0 0 [(B "after_insert" 9 53 65 0 0 [(A "after" 10 53 58 0 0 []); (A "insert" 11 59 65 0 0 [])])]); (A ")" 12 65 66 0 0 []); (B "trigger_body" 13 68 91 0 1 [(B "block" 14 68 91 0 1 [(A "{" 15 68 69 0 0 []); (C "block_comment" 16 70 89 0 0 []); (A "}" 17 90 91 1 1 [])])] # "body")])]).
Example comments_block_c2 : as_expected comments_block_c2_source comments_block_c2_tree (U "trigger InlineTrailingCommentAfterTrigger on Account(after insert) {
  /* Block Comment */
}
").
Proof. apply run_test_ok. vm_compute. reflexivity. Qed.

(* tests/comments/block_c3.in *)
Definition comments_block_c3_source : ustr := U "class A{
  {
    Integer b /* Comment 2 */ =  1;

    Integer  /* Comment 3 */ c =  1;

    /* Comment 4 */ Integer d =  1;

    /* Comment 5 */
    Integer e =  1;
  }
}
".
Definition comments_block_c3_tree : span := (B "parser_output" 1 0 171 0 12 [(B "class_declaration" 2 0 170 0 11 [(A "class" 3 0 5 0 0 []); (B "identifier" 4 6 7 0 0 [] # "name"); (B "class_body" 5 7 170 0 11 [(A "{" 6 7 8 0 0 []); (B "block" 7 11 168 1 10 [(A "{" 8 11 12 1 1 []); (B "local_variable_declaration" 9 17 48 2 2 [(B "type_identifier" 10 17 24 2 2 [] # "type"); (B "variable_declarator" 11 25 47 2 2 [(B "identifier" 12 25 26 2 2 [] # "name"); (C "block_comment" 13 27 42 2 2 []); (B "assignment_operator" 14 43 44 2 2 [(A "=" 15 43 44 2 2 [])]); (B "int" 16 46 47 2 2 [] # "value")] # "declarator"); (A ";" 17 47 48 2 2 [])]); (B "local_variable_declaration" 18 54 86 4 4 [(B "type_identifier" 19 54 61 4 4 [] # "type"); (C "block_comment" 20 63 78 4 4 []); (B "variable_declarator" 21 79 85 4 4 [(B "identifier" 22 79 80 4 4 [] # "name"); (B "assignment_operator" 23 81 82 4 4 [(A "=" 24 81 82 4 4 [])]); (B "int" 25 84 85 4 4 [] # "value")] # "declarator"); (A ";" 26 85 86 4 4 [])]); (C "block_comment" 27 92 107 6 6 []); (B "local_variable_declaration" 28 108 123 6 6 [(B "type_identifier" 29 108 115 6 6 [] # "type"); (B "variable_declarator" 30 116 122 6 6 [(B "identifier" 31 116 117 6 6 [] # "name"); (B "assignment_operator" 32 118 119 6 6 [(A "=" 33 118 119 6 6 [])]); (B "int" 34 121 122 6 6 [] # "value")] # "declarator"); (A ";" 35 122 123 6 6 [])]); (C "block_comment" 36 129 144 8 8 []); (B "local_variable_declaration" 37 149 164 9 9 [(B "type_identifier" 38 149 156 9 9 [] # "type"); (B "variable_declarator" 39 157 163 9 9 [(B "identifier" 40 157 158 9 9 [] # "name"); (B "assignment_operator" 41 159 160 9 9 [(A "=" 42 159 160 9 9 [])]); (B "int" 43 162 163 9 9 [] # "value")] # "declarator"); (A ";" 44 163 164 9 9 [])]); (A "}" 45 167 168 10 10 [])]); (A "}" 46 169 170 11 11 [])] # "body")])]).
Example comments_block_c3 : as_expected comments_block_c3_source comments_block_c3_tree (U "class A {
  {
    Integer b /* Comment 2 */ = 1;

    Integer /* Comment 3 */ c = 1;

    /* Comment 4 */ Integer d = 1;

    /* Comment 5 */
    Integer e = 1;
  }
}
").
Proof. apply run_test_ok. vm_compute. reflexivity. Qed.

(* tests/comments/block_c4.in *)
Definition comments_block_c4_source : ustr := U "class A{
  {
    Integer a = 1; /* Comment 1 */

    Integer b  =  1 /* Comment 2 */;
  }
}
".
Definition comments_block_c4_tree : span := (B "parser_output" 1 0 92 0 7 [(B "class_declaration" 2 0 91 0 6 [(A "class" 3 0 5 0 0 []); (B "identifier" 4 6 7 0 0 [] # "name"); (B "class_body" 5 7 91 0 6 [(A "{" 6 7 8 0 0 []); (B "block" 7 11 89 1 5 [(A "{" 8 11 12 1 1 []); (B "local_variable_declaration" 9 17 31 2 2 [(B "type_identifier" 10 17 24 2 2 [] # "type"); (B "variable_declarator" 11 25 30 2 2 [(B "identifier" 12 25 26 2 2 [] # "name"); (B "assignment_operator" 13 27 28 2 2 [(A "=" 14 27 28 2 2 [])]); (B "int" 15 29 30 2 2 [] # "value")] # "declarator"); (A ";" 16 30 31 2 2 [])]); (C "block_comment" 17 32 47 2 2 []); (B "local_variable_declaration" 18 53 85 4 4 [(B "type_identifier" 19 53 60 4 4 [] # "type"); (B "variable_declarator" 20 61 68 4 4 [(B "identifier" 21 61 62 4 4 [] # "name"); (B "assignment_operator" 22 64 65 4 4 [(A "=" 23 64 65 4 4 [])]); (B "int" 24 67 68 4 4 [] # "value")] # "declarator"); (C "block_comment" 25 69 84 4 4 []); (A ";" 26 84 85 4 4 [])]); (A "}" 27 88 89 5 5 [])]); (A "}" 28 90 91 6 6 [])] # "body")])]).
Example comments_block_c4 : as_expected comments_block_c4_source comments_block_c4_tree (U "class A {
  {
    Integer a = 1; /* Comment 1 */

    Integer b = 1 /* Comment 2 */;
  }
}
").
Proof. apply run_test_ok. vm_compute. reflexivity. Qed.

(* tests/comments/c7.in *)
Definition comments_c7_source : ustr := U "public class OuterClass {
  // Static final variable (constant) " ++ [8211%N] ++ U " outer class level only
  private static final   Integer MY_INT  ;   // hello

}
".
Definition comments_c7_tree : span := (B "parser_output" 1 0 146 0 5 [(B "class_declaration" 2 0 145 0 4 [(B "modifiers" 3 0 6 0 0 [(B "modifier" 4 0 6 0 0 [(B "public" 5 0 6 0 0 [(A "public" 6 0 6 0 0 [])])])]); (A "class" 7 7 12 0 0 []); (B "identifier" 8 13 23 0 0 [] # "name"); (B "class_body" 9 24 145 0 4 [(A "{" 10 24 25 0 0 []); (C "line_comment" 11 28 88 1 1 []); (B "field_declaration" 12 91 131 2 2 [(B "modifiers" 13 91 111 2 2 [(B "modifier" 14 91 98 2 2 [(B "private" 15 91 98 2 2 [(A "private" 16 91 98 2 2 [])])]); (B "modifier" 17 99 105 2 2 [(B "static" 18 99 105 2 2 [(A "static" 19 99 105 2 2 [])])]); (B "modifier" 20 106 111 2 2 [(B "final" 21 106 111 2 2 [(A "final" 22 106 111 2 2 [])])])]); (B "type_identifier" 23 114 121 2 2 [] # "type"); (B "variable_declarator" 24 122 128 2 2 [(B "identifier" 25 122 128 2 2 [] # "name")] # "declarator"); (A ";" 26 130 131 2 2 [])]); (C "line_comment" 27 134 142 2 2 []); (A "}" 28 144 145 4 4 [])] # "body")])]).
Example comments_c7 : as_expected comments_c7_source comments_c7_tree (U "public class OuterClass {
  // Static final variable (constant) " ++ [8211%N] ++ U " outer class level only
  private static final Integer MY_INT; // hello
}
").
Proof. apply run_test_ok. vm_compute. reflexivity. Qed.

(* tests/comments/comment1.in *)
Definition comments_comment1_source : ustr := U "// with or without `public` should have no difference
public class  /*t*/  A {
}

class  /*t*/  A {
}
".
Definition comments_comment1_tree : span := (B "parser_output" 1 0 102 0 6 [(C "line_comment" 2 0 53 0 0 []); (B "class_declaration" 3 54 80 1 2 [(B "modifiers" 4 54 60 1 1 [(B "modifier" 5 54 60 1 1 [(B "public" 6 54 60 1 1 [(A "public" 7 54 60 1 1 [])])])]); (A "class" 8 61 66 1 1 []); (C "block_comment" 9 68 73 1 1 []); (B "identifier" 10 75 76 1 1 [] # "name"); (B "class_body" 11 77 80 1 2 [(A "{" 12 77 78 1 1 []); (A "}" 13 79 80 2 2 [])] # "body")]); (B "class_declaration" 14 82 101 4 5 [(A "class" 15 82 87 4 4 []); (C "block_comment" 16 89 94 4 4 []); (B "identifier" 17 96 97 4 4 [] # "name"); (B "class_body" 18 98 101 4 5 [(A "{" 19 98 99 4 4 []); (A "}" 20 100 101 5 5 [])] # "body")])]).
Example comments_comment1 : as_expected comments_comment1_source comments_comment1_tree (U "// with or without `public` should have no difference
public /*t*/ class A {
}

class /*t*/ A {
}
").
Proof. apply run_test_ok. vm_compute. reflexivity. Qed.

(* tests/comments/comment11.in *)
Definition comments_comment11_source : ustr := U "      /* Block Comment 
        test 123
      */
class BlockTrailingCommentAfterClass { 
  public BlockTrailingCommentsAfterClass() {}
}
".
Definition comments_comment11_tree : span := (B "parser_output" 1 6 138 0 6 [(C "block_comment" 2 6 49 0 2 []); (B "class_declaration" 3 50 137 3 5 [(A "class" 4 50 55 3 3 []); (B "identifier" 5 56 86 3 3 [] # "name"); (B "class_body" 6 87 137 3 5 [(A "{" 7 87 88 3 3 []); (B "constructor_declaration" 8 92 135 4 4 [(B "modifiers" 9 92 98 4 4 [(B "modifier" 10 92 98 4 4 [(B "public" 11 92 98 4 4 [(A "public" 12 92 98 4 4 [])])])]); (B "identifier" 13 99 130 4 4 [] # "name"); (B "formal_parameters" 14 130 132 4 4 [(A "(" 15 130 131 4 4 []); (A ")" 16 131 132 4 4 [])] # "parameters"); (B "constructor_body" 17 133 135 4 4 [(A "{" 18 133 134 4 4 []); (A "}" 19 134 135 4 4 [])] # "body")]); (A "}" 20 136 137 5 5 [])] # "body")])]).
Example comments_comment11 : as_expected comments_comment11_source comments_comment11_tree (U "/* Block Comment
test 123
*/
class BlockTrailingCommentAfterClass {
  public BlockTrailingCommentsAfterClass() {
  }
}
").
Proof. apply run_test_ok. vm_compute. reflexivity. Qed.

(* tests/comments/comment2.in *)
Definition comments_comment2_source : ustr := U "// long block comments in middle triggers line wrapping
public class /*tttttttttttttttttttttttttttttttttttttttttttttttt*/ A implements B.C {
}

".
Definition comments_comment2_tree : span := (B "parser_output" 1 0 144 0 4 [(C "line_comment" 2 0 55 0 0 []); (B "class_declaration" 3 56 142 1 2 [(B "modifiers" 4 56 62 1 1 [(B "modifier" 5 56 62 1 1 [(B "public" 6 56 62 1 1 [(A "public" 7 56 62 1 1 [])])])]); (A "class" 8 63 68 1 1 []); (C "block_comment" 9 69 121 1 1 []); (B "identifier" 10 122 123 1 1 [] # "name"); (B "interfaces" 11 124 138 1 1 [(A "implements" 12 124 134 1 1 []); (B "type_list" 13 135 138 1 1 [(B "scoped_type_identifier" 14 135 138 1 1 [(B "type_identifier" 15 135 136 1 1 []); (A "." 16 136 137 1 1 []); (B "type_identifier" 17 137 138 1 1 [])])])]); (B "class_body" 18 139 142 1 2 [(A "{" 19 139 140 1 1 []); (A "}" 20 141 142 2 2 [])] # "body")])]).
Example comments_comment2 : as_expected comments_comment2_source comments_comment2_tree (U "// long block comments in middle triggers line wrapping
public /*tttttttttttttttttttttttttttttttttttttttttttttttt*/ class A
  implements B.C {
}
").
Proof. apply run_test_ok. vm_compute. reflexivity. Qed.

(* tests/comments/comment_force_line_wrap1.in *)
Definition comments_comment_force_line_wrap1_source : ustr := U "public class A {
  {
    [SELECT Id, 
        /* t */ Name__c,
        Name, Id__c, Name__c, Good_haha1_c, Good_haha2_c, Good_haha3_c, Good_haha4_c FROM Acc];
  }
}
".
Definition comments_comment_force_line_wrap1_tree : span := (B "parser_output" 1 0 165 0 7 [(B "class_declaration" 2 0 164 0 6 [(B "modifiers" 3 0 6 0 0 [(B "modifier" 4 0 6 0 0 [(B "public" 5 0 6 0 0 [(A "public" 6 0 6 0 0 [])])])]); (A "class" 7 7 12 0 0 []); (B "identifier" 8 13 14 0 0 [] # "name"); (B "class_body" 9 15 164 0 6 [(A "{" 10 15 16 0 0 []); (B "block" 11 19 162 1 5 [(A "{" 12 19 20 1 1 []); (B "expression_statement" 13 25 158 2 4 [(B "query_expression" 14 25 157 2 4 [(A "[" 15 25 26 2 2 []); (B "soql_query_body" 16 26 156 2 4 [(B "select_clause" 17 26 147 2 4 [(A "SELECT" 18 26 32 2 2 []); (B "field_identifier" 19 33 35 2 2 [(B "identifier" 20 33 35 2 2 [])]); (A "," 21 35 36 2 2 []); (C "block_comment" 22 46 53 3 3 []); (B "field_identifier" 23 54 61 3 3 [(B "identifier" 24 54 61 3 3 [])]); (A "," 25 61 62 3 3 []); (B "field_identifier" 26 71 75 4 4 [(B "identifier" 27 71 75 4 4 [])]); (A "," 28 75 76 4 4 []); (B "field_identifier" 29 77 82 4 4 [(B "identifier" 30 77 82 4 4 [])]); (A "," 31 82 83 4 4 []); (B "field_identifier" 32 84 91 4 4 [(B "identifier" 33 84 91 4 4 [])]); (A "," 34 91 92 4 4 []); (B "field_identifier" 35 93 105 4 4 [(B "identifier" 36 93 105 4 4 [])]); (A "," 37 105 106 4 4 []); (B "field_identifier" 38 107 119 4 4 [(B "identifier" 39 107 119 4 4 [])]); (A "," 40 119 120 4 4 []); (B "field_identifier" 41 121 133 4 4 [(B "identifier" 42 121 133 4 4 [])]); (A "," 43 133 134 4 4 []); (B "field_identifier" 44 135 147 4 4 [(B "identifier" 45 135 147 4 4 [])])] # "select_clause"); (B "from_clause" 46 148 156 4 4 [(A "FROM" 47 148 152 4 4 []); (B "storage_identifier" 48 153 156 4 4 [(B "identifier" 49 153 156 4 4 [])])] # "from_clause")]); (A "]" 50 156 157 4 4 [])]); (A ";" 51 157 158 4 4 [])]); (A "}" 52 161 162 5 5 [])]); (A "}" 53 163 164 6 6 [])] # "body")])]).
Example comments_comment_force_line_wrap1 : as_expected comments_comment_force_line_wrap1_source comments_comment_force_line_wrap1_tree (U "public class A {
  {
    [
      SELECT
        Id,
        /* t */ Name__c,
        Name,
        Id__c,
        Name__c,
        Good_haha1_c,
        Good_haha2_c,
        Good_haha3_c,
        Good_haha4_c
      FROM Acc
    ];
  }
}
").
Proof. apply run_test_ok. vm_compute. reflexivity. Qed.

(* tests/comments/comment_force_line_wrap2.in *)
Definition comments_comment_force_line_wrap2_source : ustr := U "public class A {
  {
    [SELECT Id,
        /* t */ Name__c,
        Name, Id__c, Name__c, Good_haha1_c, Good_haha2_c, Good_haha3_c, Good_haha4_c FROM Acc];

    [SELECT Id,
        /* t */
        Name__c,
        Name, Id__c, Name__c, Good_haha1_c, Good_haha2_c, Good_haha3_c, Good_haha4_c FROM Acc];

    [SELECT Id,
        /* t */ Name__c, Phone__c
        FROM Acc];

  }
}
".
Definition comments_comment_force_line_wrap2_tree : span := (B "parser_output" 1 0 381 0 17 [(B "class_declaration" 2 0 380 0 16 [(B "modifiers" 3 0 6 0 0 [(B "modifier" 4 0 6 0 0 [(B "public" 5 0 6 0 0 [(A "public" 6 0 6 0 0 [])])])]); (A "class" 7 7 12 0 0 []); (B "identifier" 8 13 14 0 0 [] # "name"); (B "class_body" 9 15 380 0 16 [(A "{" 10 15 16 0 0 []); (B "block" 11 19 378 1 15 [(A "{" 12 19 20 1 1 []); (B "expression_statement" 13 25 157 2 4 [(B "query_expression" 14 25 156 2 4 [(A "[" 15 25 26 2 2 []); (B "soql_query_body" 16 26 155 2 4 [(B "select_clause" 17 26 146 2 4 [(A "SELECT" 18 26 32 2 2 []); (B "field_identifier" 19 33 35 2 2 [(B "identifier" 20 33 35 2 2 [])]); (A "," 21 35 36 2 2 []); (C "block_comment" 22 45 52 3 3 []); (B "field_identifier" 23 53 60 3 3 [(B "identifier" 24 53 60 3 3 [])]); (A "," 25 60 61 3 3 []); (B "field_identifier" 26 70 74 4 4 [(B "identifier" 27 70 74 4 4 [])]); (A "," 28 74 75 4 4 []); (B "field_identifier" 29 76 81 4 4 [(B "identifier" 30 76 81 4 4 [])]); (A "," 31 81 82 4 4 []); (B "field_identifier" 32 83 90 4 4 [(B "identifier" 33 83 90 4 4 [])]); (A "," 34 90 91 4 4 []); (B "field_identifier" 35 92 104 4 4 [(B "identifier" 36 92 104 4 4 [])]); (A "," 37 104 105 4 4 []); (B "field_identifier" 38 106 118 4 4 [(B "identifier" 39 106 118 4 4 [])]); (A "," 40 118 119 4 4 []); (B "field_identifier" 41 120 132 4 4 [(B "identifier" 42 120 132 4 4 [])]); (A "," 43 132 133 4 4 []); (B "field_identifier" 44 134 146 4 4 [(B "identifier" 45 134 146 4 4 [])])] # "select_clause"); (B "from_clause" 46 147 155 4 4 [(A "FROM" 47 147 151 4 4 []); (B "storage_identifier" 48 152 155 4 4 [(B "identifier" 49 152 155 4 4 [])])] # "from_clause")]); (A "]" 50 155 156 4 4 [])]); (A ";" 51 156 157 4 4 [])]); (B "expression_statement" 52 163 303 6 9 [(B "query_expression" 53 163 302 6 9 [(A "[" 54 163 164 6 6 []); (B "soql_query_body" 55 164 301 6 9 [(B "select_clause" 56 164 292 6 9 [(A "SELECT" 57 164 170 6 6 []); (B "field_identifier" 58 171 173 6 6 [(B "identifier" 59 171 173 6 6 [])]); (A "," 60 173 174 6 6 []); (C "block_comment" 61 183 190 7 7 []); (B "field_identifier" 62 199 206 8 8 [(B "identifier" 63 199 206 8 8 [])]); (A "," 64 206 207 8 8 []); (B "field_identifier" 65 216 220 9 9 [(B "identifier" 66 216 220 9 9 [])]); (A "," 67 220 221 9 9 []); (B "field_identifier" 68 222 227 9 9 [(B "identifier" 69 222 227 9 9 [])]); (A "," 70 227 228 9 9 []); (B "field_identifier" 71 229 236 9 9 [(B "identifier" 72 229 236 9 9 [])]); (A "," 73 236 237 9 9 []); (B "field_identifier" 74 238 250 9 9 [(B "identifier" 75 238 250 9 9 [])]); (A "," 76 250 251 9 9 []); (B "field_identifier" 77 252 264 9 9 [(B "identifier" 78 252 264 9 9 [])]); (A "," 79 264 265 9 9 []); (B "field_identifier" 80 266 278 9 9 [(B "identifier" 81 266 278 9 9 [])]); (A "," 82 278 279 9 9 []); (B "field_identifier" 83 280 292 9 9 [(B "identifier" 84 280 292 9 9 [])])] # "select_clause"); (B "from_clause" 85 293 301 9 9 [(A "FROM" 86 293 297 9 9 []); (B "storage_identifier" 87 298 301 9 9 [(B "identifier" 88 298 301 9 9 [])])] # "from_clause")]); (A "]" 89 301 302 9 9 [])]); (A ";" 90 302 303 9 9 [])]); (B "expression_statement" 91 309 373 11 13 [(B "query_expression" 92 309 372 11 13 [(A "[" 93 309 310 11 11 []); (B "soql_query_body" 94 310 371 11 13 [(B "select_clause" 95 310 354 11 12 [(A "SELECT" 96 310 316 11 11 []); (B "field_identifier" 97 317 319 11 11 [(B "identifier" 98 317 319 11 11 [])]); (A "," 99 319 320 11 11 []); (C "block_comment" 100 329 336 12 12 []); (B "field_identifier" 101 337 344 12 12 [(B "identifier" 102 337 344 12 12 [])]); (A "," 103 344 345 12 12 []); (B "field_identifier" 104 346 354 12 12 [(B "identifier" 105 346 354 12 12 [])])] # "select_clause"); (B "from_clause" 106 363 371 13 13 [(A "FROM" 107 363 367 13 13 []); (B "storage_identifier" 108 368 371 13 13 [(B "identifier" 109 368 371 13 13 [])])] # "from_clause")]); (A "]" 110 371 372 13 13 [])]); (A ";" 111 372 373 13 13 [])]); (A "}" 112 377 378 15 15 [])]); (A "}" 113 379 380 16 16 [])] # "body")])]).
Example comments_comment_force_line_wrap2 : as_expected comments_comment_force_line_wrap2_source comments_comment_force_line_wrap2_tree (U "public class A {
  {
    [
      SELECT
        Id,
        /* t */ Name__c,
        Name,
        Id__c,
        Name__c,
        Good_haha1_c,
        Good_haha2_c,
        Good_haha3_c,
        Good_haha4_c
      FROM Acc
    ];

    [
      SELECT
        Id,
        /* t */
        Name__c,
        Name,
        Id__c,
        Name__c,
        Good_haha1_c,
        Good_haha2_c,
        Good_haha3_c,
        Good_haha4_c
      FROM Acc
    ];

    [
      SELECT
        Id,
        /* t */ Name__c,
        Phone__c
      FROM Acc
    ];
  }
}
").
Proof. apply run_test_ok. vm_compute. reflexivity. Qed.

(* tests/comments/comment_with_trailing_spaces.in *)
Definition comments_comment_with_trailing_spaces_source : ustr := U "class Comments { 
  // comments with trailing empty spaces      
}
".
Definition comments_comment_with_trailing_spaces_tree : span := (B "parser_output" 1 0 67 0 3 [(B "class_declaration" 2 0 66 0 2 [(A "class" 3 0 5 0 0 []); (B "identifier" 4 6 14 0 0 [] # "name"); (B "class_body" 5 15 66 0 2 [(A "{" 6 15 16 0 0 []); (C "line_comment" 7 20 64 1 1 []); (A "}" 8 65 66 2 2 [])] # "body")])]).
Example comments_comment_with_trailing_spaces : as_expected comments_comment_with_trailing_spaces_source comments_comment_with_trailing_spaces_tree (U "class Comments {
  // comments with trailing empty spaces
}
").
Proof. apply run_test_ok. vm_compute. reflexivity. Qed.

(* tests/comments/comments3.in *)
Definition comments_comments3_source : ustr := U "public class A {
  {
    private final Integer j = k.length(); //p
    // Explicit

    //pre
    private final Integer d = m.length(); /*post1*/ /*post2*/
    //post
  }
}
".
Definition comments_comments3_tree : span := (B "parser_output" 1 0 173 0 10 [(B "class_declaration" 2 0 172 0 9 [(B "modifiers" 3 0 6 0 0 [(B "modifier" 4 0 6 0 0 [(B "public" 5 0 6 0 0 [(A "public" 6 0 6 0 0 [])])])]); (A "class" 7 7 12 0 0 []); (B "identifier" 8 13 14 0 0 [] # "name"); (B "class_body" 9 15 172 0 9 [(A "{" 10 15 16 0 0 []); (B "block" 11 19 170 1 8 [(A "{" 12 19 20 1 1 []); (B "local_variable_declaration" 13 25 62 2 2 [(B "modifiers" 14 25 38 2 2 [(B "modifier" 15 25 32 2 2 [(B "private" 16 25 32 2 2 [(A "private" 17 25 32 2 2 [])])]); (B "modifier" 18 33 38 2 2 [(B "final" 19 33 38 2 2 [(A "final" 20 33 38 2 2 [])])])]); (B "type_identifier" 21 39 46 2 2 [] # "type"); (B "variable_declarator" 22 47 61 2 2 [(B "identifier" 23 47 48 2 2 [] # "name"); (B "assignment_operator" 24 49 50 2 2 [(A "=" 25 49 50 2 2 [])]); (B "method_invocation" 26 51 61 2 2 [(B "identifier" 27 51 52 2 2 [] # "object"); (A "." 28 52 53 2 2 []); (B "identifier" 29 53 59 2 2 [] # "name"); (B "argument_list" 30 59 61 2 2 [(A "(" 31 59 60 2 2 []); (A ")" 32 60 61 2 2 [])] # "arguments")] # "value")] # "declarator"); (A ";" 33 61 62 2 2 [])]); (C "line_comment" 34 63 66 2 2 []); (C "line_comment" 35 71 82 3 3 []); (C "line_comment" 36 88 93 5 5 []); (B "local_variable_declaration" 37 98 135 6 6 [(B "modifiers" 38 98 111 6 6 [(B "modifier" 39 98 105 6 6 [(B "private" 40 98 105 6 6 [(A "private" 41 98 105 6 6 [])])]); (B "modifier" 42 106 111 6 6 [(B "final" 43 106 111 6 6 [(A "final" 44 106 111 6 6 [])])])]); (B "type_identifier" 45 112 119 6 6 [] # "type"); (B "variable_declarator" 46 120 134 6 6 [(B "identifier" 47 120 121 6 6 [] # "name"); (B "assignment_operator" 48 122 123 6 6 [(A "=" 49 122 123 6 6 [])]); (B "method_invocation" 50 124 134 6 6 [(B "identifier" 51 124 125 6 6 [] # "object"); (A "." 52 125 126 6 6 []); (B "identifier" 53 126 132 6 6 [] # "name"); (B "argument_list" 54 132 134 6 6 [(A "(" 55 132 133 6 6 []); (A ")" 56 133 134 6 6 [])] # "arguments")] # "value")] # "declarator"); (A ";" 57 134 135 6 6 [])]); (C "block_comment" 58 136 145 6 6 []); (C "block_comment" 59 146 155 6 6 []); (C "line_comment" 60 160 166 7 7 []); (A "}" 61 169 170 8 8 [])]); (A "}" 62 171 172 9 9 [])] # "body")])]).
Example comments_comments3 : as_expected comments_comments3_source comments_comments3_tree (U "public class A {
  {
    private final Integer j = k.length(); //p
    // Explicit

    //pre
    private final Integer d = m.length(); /*post1*/ /*post2*/
    //post
  }
}
").
Proof. apply run_test_ok. vm_compute. reflexivity. Qed.

(* tests/comments/comments_in_names.in *)
Definition comments_comments_in_names_source : ustr := U "// check leading comment before class `{`
public class  A  implements  B.C /*3*/ {
  public static void Hello() /*4*/ {
  }
}
".
Definition comments_comments_in_names_tree : span := (B "parser_output" 1 0 126 0 5 [(C "line_comment" 2 0 41 0 0 []); (B "class_declaration" 3 42 125 1 4 [(B "modifiers" 4 42 48 1 1 [(B "modifier" 5 42 48 1 1 [(B "public" 6 42 48 1 1 [(A "public" 7 42 48 1 1 [])])])]); (A "class" 8 49 54 1 1 []); (B "identifier" 9 56 57 1 1 [] # "name"); (B "interfaces" 10 59 74 1 1 [(A "implements" 11 59 69 1 1 []); (B "type_list" 12 71 74 1 1 [(B "scoped_type_identifier" 13 71 74 1 1 [(B "type_identifier" 14 71 72 1 1 []); (A "." 15 72 73 1 1 []); (B "type_identifier" 16 73 74 1 1 [])])])]); (C "block_comment" 17 75 80 1 1 []); (B "class_body" 18 81 125 1 4 [(A "{" 19 81 82 1 1 []); (B "method_declaration" 20 85 123 2 3 [(B "modifiers" 21 85 98 2 2 [(B "modifier" 22 85 91 2 2 [(B "public" 23 85 91 2 2 [(A "public" 24 85 91 2 2 [])])]); (B "modifier" 25 92 98 2 2 [(B "static" 26 92 98 2 2 [(A "static" 27 92 98 2 2 [])])])]); (B "void_type" 28 99 103 2 2 [] # "type"); (B "identifier" 29 104 109 2 2 [] # "name"); (B "formal_parameters" 30 109 111 2 2 [(A "(" 31 109 110 2 2 []); (A ")" 32 110 111 2 2 [])] # "parameters"); (C "block_comment" 33 112 117 2 2 []); (B "block" 34 118 123 2 3 [(A "{" 35 118 119 2 2 []); (A "}" 36 122 123 3 3 [])] # "body")]); (A "}" 37 124 125 4 4 [])] # "body")])]).
Example comments_comments_in_names : as_expected comments_comments_in_names_source comments_comments_in_names_tree (U "// check leading comment before class `{`
public class A implements B.C /*3*/ {
  public static void Hello() /*4*/ {
  }
}
").
Proof. apply run_test_ok. vm_compute. reflexivity. Qed.

(* tests/comments/dangling_comments1.in *)
Definition comments_dangling_comments1_source : ustr := U "Class A{
{

          /*
              block comment
*/

            //line comment
}

}
".
Definition comments_dangling_comments1_tree : span := (B "parser_output" 1 0 89 0 11 [(B "class_declaration" 2 0 88 0 10 [(A "class" 3 0 5 0 0 []); (B "identifier" 4 6 7 0 0 [] # "name"); (B "class_body" 5 7 88 0 10 [(A "{" 6 7 8 0 0 []); (B "block" 7 9 85 1 8 [(A "{" 8 9 10 1 1 []); (C "block_comment" 9 22 55 3 5 []); (C "line_comment" 10 69 83 7 7 []); (A "}" 11 84 85 8 8 [])]); (A "}" 12 87 88 10 10 [])] # "body")])]).
Example comments_dangling_comments1 : as_expected comments_dangling_comments1_source comments_dangling_comments1_tree (U "class A {
  {
    /*
    block comment
    */

    //line comment
  }
}
").
Proof. apply run_test_ok. vm_compute. reflexivity. Qed.

(* tests/comments/empty_body_comments.in *)
Definition comments_empty_body_comments_source : ustr := U "public class A {
  // Inline Comment

  /* Block Comment */
}
".
Definition comments_empty_body_comments_tree : span := (B "parser_output" 1 0 62 0 5 [(B "class_declaration" 2 0 61 0 4 [(B "modifiers" 3 0 6 0 0 [(B "modifier" 4 0 6 0 0 [(B "public" 5 0 6 0 0 [(A "public" 6 0 6 0 0 [])])])]); (A "class" 7 7 12 0 0 []); (B "identifier" 8 13 14 0 0 [] # "name"); (B "class_body" 9 15 61 0 4 [(A "{" 10 15 16 0 0 []); (C "line_comment" 11 19 36 1 1 []); (C "block_comment" 12 40 59 3 3 []); (A "}" 13 60 61 4 4 [])] # "body")])]).
Example comments_empty_body_comments : as_expected comments_empty_body_comments_source comments_empty_body_comments_tree (U "public class A {
  // Inline Comment

  /* Block Comment */
}
").
Proof. apply run_test_ok. vm_compute. reflexivity. Qed.

(* tests/comments/java_doc.in *)
Definition comments_java_doc_source : ustr := U "/*
 * This is a
 * multiline block comment
 * that is not JavaDoc.
 */

/** This is a JavaDoc
    with multiple lines
    and some indentation. */

/**
This is a JavaDoc
  * with inconsistent
   * indentation.
    */

/**
 *** This is a JavaDoc
 *** with excessive asterisks.
 */

/**
 * This is a JavaDoc.
 *
 * It has an empty line.
 */

/** This method does something.
 *
 * @param x The first parameter.
 * @param y The second parameter.
 * @return The result.
 */

/**
 *    This has extra spaces.
 *
 * @author   Someone
 */

 Class A {
 }
".
Definition comments_java_doc_tree : span := (B "parser_output" 1 0 546 0 42 [(C "block_comment" 2 0 70 0 4 []); (C "block_comment" 3 72 146 6 8 []); (C "block_comment" 4 148 216 10 14 []); (C "block_comment" 5 218 279 16 19 []); (C "block_comment" 6 281 338 21 25 []); (C "block_comment" 7 340 468 27 32 []); (C "block_comment" 8 470 530 34 38 []); (B "class_declaration" 9 533 545 40 41 [(A "class" 10 533 538 40 40 []); (B "identifier" 11 539 540 40 40 [] # "name"); (B "class_body" 12 541 545 40 41 [(A "{" 13 541 542 40 40 []); (A "}" 14 544 545 41 41 [])] # "body")])]).
Example comments_java_doc : as_expected comments_java_doc_source comments_java_doc_tree (U "/*
* This is a
* multiline block comment
* that is not JavaDoc.
*/

/**
 * This is a JavaDoc
 * with multiple lines
 * and some indentation.
 */

/**
 * This is a JavaDoc
 * with inconsistent
 * indentation.
 */

/**
 * ** This is a JavaDoc
 * ** with excessive asterisks.
 */

/**
 * This is a JavaDoc.
 *
 * It has an empty line.
 */

/**
 * This method does something.
 *
 * @param x The first parameter.
 * @param y The second parameter.
 * @return The result.
 */

/**
 * This has extra spaces.
 *
 * @author   Someone
 */

class A {
}
").
Proof. apply run_test_ok. vm_compute. reflexivity. Qed.

(* tests/comments/line_comment_and_punctuation1.in *)
Definition comments_line_comment_and_punctuation1_source : ustr := U "class A {
  String s /*t*/;

  String s /*t*/;

  String s //t
  ;

  String s /*t*/  ; //t

  String s ; //t /*t*/

  String s  //t
  /*t*/ ;
}
".
Definition comments_line_comment_and_punctuation1_tree : span := (B "parser_output" 1 0 145 0 15 [(B "class_declaration" 2 0 144 0 14 [(A "class" 3 0 5 0 0 []); (B "identifier" 4 6 7 0 0 [] # "name"); (B "class_body" 5 8 144 0 14 [(A "{" 6 8 9 0 0 []); (B "field_declaration" 7 12 27 1 1 [(B "type_identifier" 8 12 18 1 1 [] # "type"); (B "variable_declarator" 9 19 20 1 1 [(B "identifier" 10 19 20 1 1 [] # "name")] # "declarator"); (C "block_comment" 11 21 26 1 1 []); (A ";" 12 26 27 1 1 [])]); (B "field_declaration" 13 31 46 3 3 [(B "type_identifier" 14 31 37 3 3 [] # "type"); (B "variable_declarator" 15 38 39 3 3 [(B "identifier" 16 38 39 3 3 [] # "name")] # "declarator"); (C "block_comment" 17 40 45 3 3 []); (A ";" 18 45 46 3 3 [])]); (B "field_declaration" 19 50 66 5 6 [(B "type_identifier" 20 50 56 5 5 [] # "type"); (B "variable_declarator" 21 57 58 5 5 [(B "identifier" 22 57 58 5 5 [] # "name")] # "declarator"); (C "line_comment" 23 59 62 5 5 []); (A ";" 24 65 66 6 6 [])]); (B "field_declaration" 25 70 87 8 8 [(B "type_identifier" 26 70 76 8 8 [] # "type"); (B "variable_declarator" 27 77 78 8 8 [(B "identifier" 28 77 78 8 8 [] # "name")] # "declarator"); (C "block_comment" 29 79 84 8 8 []); (A ";" 30 86 87 8 8 [])]); (C "line_comment" 31 88 91 8 8 []); (B "field_declaration" 32 95 105 10 10 [(B "type_identifier" 33 95 101 10 10 [] # "type"); (B "variable_declarator" 34 102 103 10 10 [(B "identifier" 35 102 103 10 10 [] # "name")] # "declarator"); (A ";" 36 104 105 10 10 [])]); (C "line_comment" 37 106 115 10 10 []); (B "field_declaration" 38 119 142 12 13 [(B "type_identifier" 39 119 125 12 12 [] # "type"); (B "variable_declarator" 40 126 127 12 12 [(B "identifier" 41 126 127 12 12 [] # "name")] # "declarator"); (C "line_comment" 42 129 132 12 12 []); (C "block_comment" 43 135 140 13 13 []); (A ";" 44 141 142 13 13 [])]); (A "}" 45 143 144 14 14 [])] # "body")])]).
Example comments_line_comment_and_punctuation1 : as_expected comments_line_comment_and_punctuation1_source comments_line_comment_and_punctuation1_tree (U "class A {
  String s /*t*/;

  String s /*t*/;

  String s; //t

  String s /*t*/; //t

  String s; //t /*t*/

  String s
  /*t*/; //t
}
").
Proof. apply run_test_ok. vm_compute. reflexivity. Qed.

(* tests/comments/many_comments.in *)
Definition comments_many_comments_source : ustr := U "public class OuterClass {

  // Static final variable (constant) " ++ [8211%N] ++ U " outer class level only
  private static final Integer MY_INT;

  // Non-final static variable - use this to communicate state across triggers
  // within a single request)
  public static String sharedState;

  // Static method - outer class level only
  public static Integer getInt() { return MY_INT; }

  // Static initialization (can be included where the variable is defined)
  static {
    MY_INT = 2;
  }

  // Member variable for outer class
  private final String m;

  // Instance initialization block - can be done where the variable is declared,
  // or in a constructor
  {
    m = 'a';
  }

  // Because no constructor is explicitly defined in this outer class, an implicit,
  // no-argument, public constructor exists

  // Inner interface
  public virtual interface MyInterface {

    // No access modifier is necessary for interface methods - these are always
    // public or global depending on the interface visibility
    void myMethod();
  }

  // Interface extension
  interface MySecondInterface extends MyInterface {
    Integer method2(Integer i);
  }

  // Inner class - because it is virtual it can be extended.
  // This class implements an interface that, in turn, extends another interface.
  // Consequently the class must implement all methods.
  public virtual class InnerClass implements MySecondInterface {

    // Inner member variables
    private final String s;
    private final String s2;

    // Inner instance initialization block (this code could be located above)
    {
       this.s = 'x';
    }

    // Inline initialization (happens after the block above executes)
    private final Integer i = s.length();

    // Explicit no argument constructor
    InnerClass() {
       // This invokes another constructor that is defined later
       this('none');
    }

    // Constructor that assigns a final variable value
    public InnerClass(String s2) {
      this.s2 = s2;
    }

    // Instance method that implements a method from MyInterface.
    // Because it is declared virtual it can be overridden by a subclass.
    public virtual void myMethod() { /* does nothing */ }

    // Implementation of the second interface method above.
    // This method references member variables (with and without the ""this"" prefix)
    public Integer method2(Integer i) { return this.i + s.length(); }
  }

  // Abstract class (that subclasses the class above). No constructor is needed since
  // parent class has a no-argument constructor
  public abstract class AbstractChildClass extends InnerClass {

    // Override the parent class method with this signature.
    // Must use the override keyword
    public override void myMethod() { /* do something else */ }

    // Same name as parent class method, but different signature.
    // This is a different method (displaying polymorphism) so it does not need
    // to use the override keyword
    protected void method2() {}

    // Abstract method - subclasses of this class must implement this method
    abstract Integer abstractMethod();
  }

  // Complete the abstract class by implementing its abstract method
  public class ConcreteChildClass extends AbstractChildClass {
    // Here we expand the visibility of the parent method - note that visibility
    // cannot be restricted by a sub-class
    public override Integer abstractMethod() { return 5; }
  }

  // A second sub-class of the original InnerClass
  public class AnotherChildClass extends InnerClass {
    AnotherChildClass(String s) {
      // Explicitly invoke a different super constructor than one with no arguments
      super(s);
    }
  }

  // Exception inner class
  public virtual class MyException extends Exception {
    // Exception class member variable
    public Double d;

    // Exception class constructor
    MyException(Double d) {
      this.d = d;
    }

    // Exception class method, marked as protected
    protected void doIt() {}
  }

  // Exception classes can be abstract and implement interfaces
  public abstract class MySecondException extends Exception implements MyInterface {
  }
}
".
Definition comments_many_comments_tree : span := (B "parser_output" 1 0 4149 0 129 [(B "class_declaration" 2 0 4148 0 128 [(B "modifiers" 3 0 6 0 0 [(B "modifier" 4 0 6 0 0 [(B "public" 5 0 6 0 0 [(A "public" 6 0 6 0 0 [])])])]); (A "class" 7 7 12 0 0 []); (B "identifier" 8 13 23 0 0 [] # "name"); (B "class_body" 9 24 4148 0 128 [(A "{" 10 24 25 0 0 []); (C "line_comment" 11 29 89 2 2 []); (B "field_declaration" 12 92 128 3 3 [(B "modifiers" 13 92 112 3 3 [(B "modifier" 14 92 99 3 3 [(B "private" 15 92 99 3 3 [(A "private" 16 92 99 3 3 [])])]); (B "modifier" 17 100 106 3 3 [(B "static" 18 100 106 3 3 [(A "static" 19 100 106 3 3 [])])]); (B "modifier" 20 107 112 3 3 [(B "final" 21 107 112 3 3 [(A "final" 22 107 112 3 3 [])])])]); (B "type_identifier" 23 113 120 3 3 [] # "type"); (B "variable_declarator" 24 121 127 3 3 [(B "identifier" 25 121 127 3 3 [] # "name")] # "declarator"); (A ";" 26 127 128 3 3 [])]); (C "line_comment" 27 132 208 5 5 []); (C "line_comment" 28 211 238 6 6 []); (B "field_declaration" 29 241 274 7 7 [(B "modifiers" 30 241 254 7 7 [(B "modifier" 31 241 247 7 7 [(B "public" 32 241 247 7 7 [(A "public" 33 241 247 7 7 [])])]); (B "modifier" 34 248 254 7 7 [(B "static" 35 248 254 7 7 [(A "static" 36 248 254 7 7 [])])])]); (B "type_identifier" 37 255 261 7 7 [] # "type"); (B "variable_declarator" 38 262 273 7 7 [(B "identifier" 39 262 273 7 7 [] # "name")] # "declarator"); (A ";" 40 273 274 7 7 [])]); (C "line_comment" 41 278 319 9 9 []); (B "method_declaration" 42 322 371 10 10 [(B "modifiers" 43 322 335 10 10 [(B "modifier" 44 322 328 10 10 [(B "public" 45 322 328 10 10 [(A "public" 46 322 328 10 10 [])])]); (B "modifier" 47 329 335 10 10 [(B "static" 48 329 335 10 10 [(A "static" 49 329 335 10 10 [])])])]); (B "type_identifier" 50 336 343 10 10 [] # "type"); (B "identifier" 51 344 350 10 10 [] # "name"); (B "formal_parameters" 52 350 352 10 10 [(A "(" 53 350 351 10 10 []); (A ")" 54 351 352 10 10 [])] # "parameters"); (B "block" 55 353 371 10 10 [(A "{" 56 353 354 10 10 []); (B "return_statement" 57 355 369 10 10 [(A "return" 58 355 361 10 10 []); (B "identifier" 59 362 368 10 10 []); (A ";" 60 368 369 10 10 [])]); (A "}" 61 370 371 10 10 [])] # "body")]); (C "line_comment" 62 375 447 12 12 []); (B "static_initializer" 63 450 478 13 15 [(A "static" 64 450 456 13 13 []); (B "block" 65 457 478 13 15 [(A "{" 66 457 458 13 13 []); (B "expression_statement" 67 463 474 14 14 [(B "assignment_expression" 68 463 473 14 14 [(B "identifier" 69 463 469 14 14 [] # "left"); (B "assignment_operator" 70 470 471 14 14 [(A "=" 71 470 471 14 14 [])] # "operator"); (B "int" 72 472 473 14 14 [] # "right")]); (A ";" 73 473 474 14 14 [])]); (A "}" 74 477 478 15 15 [])])]); (C "line_comment" 75 482 516 17 17 []); (B "field_declaration" 76 519 542 18 18 [(B "modifiers" 77 519 532 18 18 [(B "modifier" 78 519 526 18 18 [(B "private" 79 519 526 18 18 [(A "private" 80 519 526 18 18 [])])]); (B "modifier" 81 527 532 18 18 [(B "final" 82 527 532 18 18 [(A "final" 83 527 532 18 18 [])])])]); (B "type_identifier" 84 533 539 18 18 [] # "type"); (B "variable_declarator" 85 540 541 18 18 [(B "identifier" 86 540 541 18 18 [] # "name")] # "declarator"); (A ";" 87 541 542 18 18 [])]); (C "line_comment" 88 546 624 20 20 []); (C "line_comment" 89 627 649 21 21 []); (B "block" 90 652 670 22 24 [(A "{" 91 652 653 22 22 []); (B "expression_statement" 92 658 666 23 23 [(B "assignment_expression" 93 658 665 23 23 [(B "identifier" 94 658 659 23 23 [] # "left"); (B "assignment_operator" 95 660 661 23 23 [(A "=" 96 660 661 23 23 [])] # "operator"); (B "string_literal" 97 662 665 23 23 [] # "right")]); (A ";" 98 665 666 23 23 [])]); (A "}" 99 669 670 24 24 [])]); (C "line_comment" 100 674 755 26 26 []); (C "line_comment" 101 758 799 27 27 []); (C "line_comment" 102 803 821 29 29 []); (B "interface_declaration" 103 824 1030 30 35 [(B "modifiers" 104 824 838 30 30 [(B "modifier" 105 824 830 30 30 [(B "public" 106 824 830 30 30 [(A "public" 107 824 830 30 30 [])])]); (B "modifier" 108 831 838 30 30 [(B "virtual" 109 831 838 30 30 [(A "virtual" 110 831 838 30 30 [])])])]); (A "interface" 111 839 848 30 30 []); (B "identifier" 112 849 860 30 30 [] # "name"); (B "interface_body" 113 861 1030 30 35 [(A "{" 114 861 862 30 30 []); (C "line_comment" 115 868 943 32 32 []); (C "line_comment" 116 948 1005 33 33 []); (B "method_declaration" 117 1010 1026 34 34 [(B "void_type" 118 1010 1014 34 34 [] # "type"); (B "identifier" 119 1015 1023 34 34 [] # "name"); (B "formal_parameters" 120 1023 1025 34 34 [(A "(" 121 1023 1024 34 34 []); (A ")" 122 1024 1025 34 34 [])] # "parameters"); (A ";" 123 1025 1026 34 34 [])]); (A "}" 124 1029 1030 35 35 [])] # "body")]); (C "line_comment" 125 1034 1056 37 37 []); (B "interface_declaration" 126 1059 1144 38 40 [(A "interface" 127 1059 1068 38 38 []); (B "identifier" 128 1069 1086 38 38 [] # "name"); (B "extends_interfaces" 129 1087 1106 38 38 [(A "extends" 130 1087 1094 38 38 []); (B "type_list" 131 1095 1106 38 38 [(B "type_identifier" 132 1095 1106 38 38 [])])]); (B "interface_body" 133 1107 1144 38 40 [(A "{" 134 1107 1108 38 38 []); (B "method_declaration" 135 1113 1140 39 39 [(B "type_identifier" 136 1113 1120 39 39 [] # "type"); (B "identifier" 137 1121 1128 39 39 [] # "name"); (B "formal_parameters" 138 1128 1139 39 39 [(A "(" 139 1128 1129 39 39 []); (B "formal_parameter" 140 1129 1138 39 39 [(B "type_identifier" 141 1129 1136 39 39 [] # "type"); (B "identifier" 142 1137 1138 39 39 [] # "name")]); (A ")" 143 1138 1139 39 39 [])] # "parameters"); (A ";" 144 1139 1140 39 39 [])]); (A "}" 145 1143 1144 40 40 [])] # "body")]); (C "line_comment" 146 1148 1206 42 42 []); (C "line_comment" 147 1209 1288 43 43 []); (C "line_comment" 148 1291 1344 44 44 []); (B "class_declaration" 149 1347 2409 45 77 [(B "modifiers" 150 1347 1361 45 45 [(B "modifier" 151 1347 1353 45 45 [(B "public" 152 1347 1353 45 45 [(A "public" 153 1347 1353 45 45 [])])]); (B "modifier" 154 1354 1361 45 45 [(B "virtual" 155 1354 1361 45 45 [(A "virtual" 156 1354 1361 45 45 [])])])]); (A "class" 157 1362 1367 45 45 []); (B "identifier" 158 1368 1378 45 45 [] # "name"); (B "interfaces" 159 1379 1407 45 45 [(A "implements" 160 1379 1389 45 45 []); (B "type_list" 161 1390 1407 45 45 [(B "type_identifier" 162 1390 1407 45 45 [])])]); (B "class_body" 163 1408 2409 45 77 [(A "{" 164 1408 1409 45 45 []); (C "line_comment" 165 1415 1440 47 47 []); (B "field_declaration" 166 1445 1468 48 48 [(B "modifiers" 167 1445 1458 48 48 [(B "modifier" 168 1445 1452 48 48 [(B "private" 169 1445 1452 48 48 [(A "private" 170 1445 1452 48 48 [])])]); (B "modifier" 171 1453 1458 48 48 [(B "final" 172 1453 1458 48 48 [(A "final" 173 1453 1458 48 48 [])])])]); (B "type_identifier" 174 1459 1465 48 48 [] # "type"); (B "variable_declarator" 175 1466 1467 48 48 [(B "identifier" 176 1466 1467 48 48 [] # "name")] # "declarator"); (A ";" 177 1467 1468 48 48 [])]); (B "field_declaration" 178 1473 1497 49 49 [(B "modifiers" 179 1473 1486 49 49 [(B "modifier" 180 1473 1480 49 49 [(B "private" 181 1473 1480 49 49 [(A "private" 182 1473 1480 49 49 [])])]); (B "modifier" 183 1481 1486 49 49 [(B "final" 184 1481 1486 49 49 [(A "final" 185 1481 1486 49 49 [])])])]); (B "type_identifier" 186 1487 1493 49 49 [] # "type"); (B "variable_declarator" 187 1494 1496 49 49 [(B "identifier" 188 1494 1496 49 49 [] # "name")] # "declarator"); (A ";" 189 1496 1497 49 49 [])]); (C "line_comment" 190 1503 1576 51 51 []); (B "block" 191 1581 1609 52 54 [(A "{" 192 1581 1582 52 52 []); (B "expression_statement" 193 1590 1603 53 53 [(B "assignment_expression" 194 1590 1602 53 53 [(B "field_access" 195 1590 1596 53 53 [(B "this" 196 1590 1594 53 53 [] # "object"); (A "." 197 1594 1595 53 53 []); (B "identifier" 198 1595 1596 53 53 [] # "field")] # "left"); (B "assignment_operator" 199 1597 1598 53 53 [(A "=" 200 1597 1598 53 53 [])] # "operator"); (B "string_literal" 201 1599 1602 53 53 [] # "right")]); (A ";" 202 1602 1603 53 53 [])]); (A "}" 203 1608 1609 54 54 [])]); (C "line_comment" 204 1615 1680 56 56 []); (B "field_declaration" 205 1685 1722 57 57 [(B "modifiers" 206 1685 1698 57 57 [(B "modifier" 207 1685 1692 57 57 [(B "private" 208 1685 1692 57 57 [(A "private" 209 1685 1692 57 57 [])])]); (B "modifier" 210 1693 1698 57 57 [(B "final" 211 1693 1698 57 57 [(A "final" 212 1693 1698 57 57 [])])])]); (B "type_identifier" 213 1699 1706 57 57 [] # "type"); (B "variable_declarator" 214 1707 1721 57 57 [(B "identifier" 215 1707 1708 57 57 [] # "name"); (B "assignment_operator" 216 1709 1710 57 57 [(A "=" 217 1709 1710 57 57 [])]); (B "method_invocation" 218 1711 1721 57 57 [(B "identifier" 219 1711 1712 57 57 [] # "object"); (A "." 220 1712 1713 57 57 []); (B "identifier" 221 1713 1719 57 57 [] # "name"); (B "argument_list" 222 1719 1721 57 57 [(A "(" 223 1719 1720 57 57 []); (A ")" 224 1720 1721 57 57 [])] # "arguments")] # "value")] # "declarator"); (A ";" 225 1721 1722 57 57 [])]); (C "line_comment" 226 1728 1763 59 59 []); (B "constructor_declaration" 227 1768 1874 60 63 [(B "identifier" 228 1768 1778 60 60 [] # "name"); (B "formal_parameters" 229 1778 1780 60 60 [(A "(" 230 1778 1779 60 60 []); (A ")" 231 1779 1780 60 60 [])] # "parameters"); (B "constructor_body" 232 1781 1874 60 63 [(A "{" 233 1781 1782 60 60 []); (C "line_comment" 234 1790 1847 61 61 []); (B "explicit_constructor_invocation" 235 1855 1868 62 62 [(B "this" 236 1855 1859 62 62 [] # "constructor"); (B "argument_list" 237 1859 1867 62 62 [(A "(" 238 1859 1860 62 62 []); (B "string_literal" 239 1860 1866 62 62 []); (A ")" 240 1866 1867 62 62 [])] # "arguments"); (A ";" 241 1867 1868 62 62 [])]); (A "}" 242 1873 1874 63 63 [])] # "body")]); (C "line_comment" 243 1880 1930 65 65 []); (B "constructor_declaration" 244 1935 1991 66 68 [(B "modifiers" 245 1935 1941 66 66 [(B "modifier" 246 1935 1941 66 66 [(B "public" 247 1935 1941 66 66 [(A "public" 248 1935 1941 66 66 [])])])]); (B "identifier" 249 1942 1952 66 66 [] # "name"); (B "formal_parameters" 250 1952 1963 66 66 [(A "(" 251 1952 1953 66 66 []); (B "formal_parameter" 252 1953 1962 66 66 [(B "type_identifier" 253 1953 1959 66 66 [] # "type"); (B "identifier" 254 1960 1962 66 66 [] # "name")]); (A ")" 255 1962 1963 66 66 [])] # "parameters"); (B "constructor_body" 256 1964 1991 66 68 [(A "{" 257 1964 1965 66 66 []); (B "expression_statement" 258 1972 1985 67 67 [(B "assignment_expression" 259 1972 1984 67 67 [(B "field_access" 260 1972 1979 67 67 [(B "this" 261 1972 1976 67 67 [] # "object"); (A "." 262 1976 1977 67 67 []); (B "identifier" 263 1977 1979 67 67 [] # "field")] # "left"); (B "assignment_operator" 264 1980 1981 67 67 [(A "=" 265 1980 1981 67 67 [])] # "operator"); (B "identifier" 266 1982 1984 67 67 [] # "right")]); (A ";" 267 1984 1985 67 67 [])]); (A "}" 268 1990 1991 68 68 [])] # "body")]); (C "line_comment" 269 1997 2058 70 70 []); (C "line_comment" 270 2063 2132 71 71 []); (B "method_declaration" 271 2137 2190 72 72 [(B "modifiers" 272 2137 2151 72 72 [(B "modifier" 273 2137 2143 72 72 [(B "public" 274 2137 2143 72 72 [(A "public" 275 2137 2143 72 72 [])])]); (B "modifier" 276 2144 2151 72 72 [(B "virtual" 277 2144 2151 72 72 [(A "virtual" 278 2144 2151 72 72 [])])])]); (B "void_type" 279 2152 2156 72 72 [] # "type"); (B "identifier" 280 2157 2165 72 72 [] # "name"); (B "formal_parameters" 281 2165 2167 72 72 [(A "(" 282 2165 2166 72 72 []); (A ")" 283 2166 2167 72 72 [])] # "parameters"); (B "block" 284 2168 2190 72 72 [(A "{" 285 2168 2169 72 72 []); (C "block_comment" 286 2170 2188 72 72 []); (A "}" 287 2189 2190 72 72 [])] # "body")]); (C "line_comment" 288 2196 2251 74 74 []); (C "line_comment" 289 2256 2335 75 75 []); (B "method_declaration" 290 2340 2405 76 76 [(B "modifiers" 291 2340 2346 76 76 [(B "modifier" 292 2340 2346 76 76 [(B "public" 293 2340 2346 76 76 [(A "public" 294 2340 2346 76 76 [])])])]); (B "type_identifier" 295 2347 2354 76 76 [] # "type"); (B "identifier" 296 2355 2362 76 76 [] # "name"); (B "formal_parameters" 297 2362 2373 76 76 [(A "(" 298 2362 2363 76 76 []); (B "formal_parameter" 299 2363 2372 76 76 [(B "type_identifier" 300 2363 2370 76 76 [] # "type"); (B "identifier" 301 2371 2372 76 76 [] # "name")]); (A ")" 302 2372 2373 76 76 [])] # "parameters"); (B "block" 303 2374 2405 76 76 [(A "{" 304 2374 2375 76 76 []); (B "return_statement" 305 2376 2403 76 76 [(A "return" 306 2376 2382 76 76 []); (B "binary_expression" 307 2383 2402 76 76 [(B "field_access" 308 2383 2389 76 76 [(B "this" 309 2383 2387 76 76 [] # "object"); (A "." 310 2387 2388 76 76 []); (B "identifier" 311 2388 2389 76 76 [] # "field")] # "left"); (A "+" 312 2390 2391 76 76 [] # "operator"); (B "method_invocation" 313 2392 2402 76 76 [(B "identifier" 314 2392 2393 76 76 [] # "object"); (A "." 315 2393 2394 76 76 []); (B "identifier" 316 2394 2400 76 76 [] # "name"); (B "argument_list" 317 2400 2402 76 76 [(A "(" 318 2400 2401 76 76 []); (A ")" 319 2401 2402 76 76 [])] # "arguments")] # "right")]); (A ";" 320 2402 2403 76 76 [])]); (A "}" 321 2404 2405 76 76 [])] # "body")]); (A "}" 322 2408 2409 77 77 [])] # "body")]); (C "line_comment" 323 2413 2496 79 79 []); (C "line_comment" 324 2499 2544 80 80 []); (B "class_declaration" 325 2547 3106 81 94 [(B "modifiers" 326 2547 2562 81 81 [(B "modifier" 327 2547 2553 81 81 [(B "public" 328 2547 2553 81 81 [(A "public" 329 2547 2553 81 81 [])])]); (B "modifier" 330 2554 2562 81 81 [(B "abstract" 331 2554 2562 81 81 [(A "abstract" 332 2554 2562 81 81 [])])])]); (A "class" 333 2563 2568 81 81 []); (B "identifier" 334 2569 2587 81 81 [] # "name"); (B "superclass" 335 2588 2606 81 81 [(A "extends" 336 2588 2595 81 81 []); (B "type_identifier" 337 2596 2606 81 81 [])]); (B "class_body" 338 2607 3106 81 94 [(A "{" 339 2607 2608 81 81 []); (C "line_comment" 340 2614 2670 83 83 []); (C "line_comment" 341 2675 2707 84 84 []); (B "method_declaration" 342 2712 2771 85 85 [(B "modifiers" 343 2712 2727 85 85 [(B "modifier" 344 2712 2718 85 85 [(B "public" 345 2712 2718 85 85 [(A "public" 346 2712 2718 85 85 [])])]); (B "modifier" 347 2719 2727 85 85 [(B "override" 348 2719 2727 85 85 [(A "override" 349 2719 2727 85 85 [])])])]); (B "void_type" 350 2728 2732 85 85 [] # "type"); (B "identifier" 351 2733 2741 85 85 [] # "name"); (B "formal_parameters" 352 2741 2743 85 85 [(A "(" 353 2741 2742 85 85 []); (A ")" 354 2742 2743 85 85 [])] # "parameters"); (B "block" 355 2744 2771 85 85 [(A "{" 356 2744 2745 85 85 []); (C "block_comment" 357 2746 2769 85 85 []); (A "}" 358 2770 2771 85 85 [])] # "body")]); (C "line_comment" 359 2777 2838 87 87 []); (C "line_comment" 360 2843 2918 88 88 []); (C "line_comment" 361 2923 2953 89 89 []); (B "method_declaration" 362 2958 2985 90 90 [(B "modifiers" 363 2958 2967 90 90 [(B "modifier" 364 2958 2967 90 90 [(B "protected" 365 2958 2967 90 90 [(A "protected" 366 2958 2967 90 90 [])])])]); (B "void_type" 367 2968 2972 90 90 [] # "type"); (B "identifier" 368 2973 2980 90 90 [] # "name"); (B "formal_parameters" 369 2980 2982 90 90 [(A "(" 370 2980 2981 90 90 []); (A ")" 371 2981 2982 90 90 [])] # "parameters"); (B "block" 372 2983 2985 90 90 [(A "{" 373 2983 2984 90 90 []); (A "}" 374 2984 2985 90 90 [])] # "body")]); (C "line_comment" 375 2991 3063 92 92 []); (B "method_declaration" 376 3068 3102 93 93 [(B "modifiers" 377 3068 3076 93 93 [(B "modifier" 378 3068 3076 93 93 [(B "abstract" 379 3068 3076 93 93 [(A "abstract" 380 3068 3076 93 93 [])])])]); (B "type_identifier" 381 3077 3084 93 93 [] # "type"); (B "identifier" 382 3085 3099 93 93 [] # "name"); (B "formal_parameters" 383 3099 3101 93 93 [(A "(" 384 3099 3100 93 93 []); (A ")" 385 3100 3101 93 93 [])] # "parameters"); (A ";" 386 3101 3102 93 93 [])]); (A "}" 387 3105 3106 94 94 [])] # "body")]); (C "line_comment" 388 3110 3176 96 96 []); (B "class_declaration" 389 3179 3426 97 101 [(B "modifiers" 390 3179 3185 97 97 [(B "modifier" 391 3179 3185 97 97 [(B "public" 392 3179 3185 97 97 [(A "public" 393 3179 3185 97 97 [])])])]); (A "class" 394 3186 3191 97 97 []); (B "identifier" 395 3192 3210 97 97 [] # "name"); (B "superclass" 396 3211 3237 97 97 [(A "extends" 397 3211 3218 97 97 []); (B "type_identifier" 398 3219 3237 97 97 [])]); (B "class_body" 399 3238 3426 97 101 [(A "{" 400 3238 3239 97 97 []); (C "line_comment" 401 3244 3320 98 98 []); (C "line_comment" 402 3325 3363 99 99 []); (B "method_declaration" 403 3368 3422 100 100 [(B "modifiers" 404 3368 3383 100 100 [(B "modifier" 405 3368 3374 100 100 [(B "public" 406 3368 3374 100 100 [(A "public" 407 3368 3374 100 100 [])])]); (B "modifier" 408 3375 3383 100 100 [(B "override" 409 3375 3383 100 100 [(A "override" 410 3375 3383 100 100 [])])])]); (B "type_identifier" 411 3384 3391 100 100 [] # "type"); (B "identifier" 412 3392 3406 100 100 [] # "name"); (B "formal_parameters" 413 3406 3408 100 100 [(A "(" 414 3406 3407 100 100 []); (A ")" 415 3407 3408 100 100 [])] # "parameters"); (B "block" 416 3409 3422 100 100 [(A "{" 417 3409 3410 100 100 []); (B "return_statement" 418 3411 3420 100 100 [(A "return" 419 3411 3417 100 100 []); (B "int" 420 3418 3419 100 100 []); (A ";" 421 3419 3420 100 100 [])]); (A "}" 422 3421 3422 100 100 [])] # "body")]); (A "}" 423 3425 3426 101 101 [])] # "body")]); (C "line_comment" 424 3430 3478 103 103 []); (B "class_declaration" 425 3481 3676 104 109 [(B "modifiers" 426 3481 3487 104 104 [(B "modifier" 427 3481 3487 104 104 [(B "public" 428 3481 3487 104 104 [(A "public" 429 3481 3487 104 104 [])])])]); (A "class" 430 3488 3493 104 104 []); (B "identifier" 431 3494 3511 104 104 [] # "name"); (B "superclass" 432 3512 3530 104 104 [(A "extends" 433 3512 3519 104 104 []); (B "type_identifier" 434 3520 3530 104 104 [])]); (B "class_body" 435 3531 3676 104 109 [(A "{" 436 3531 3532 104 104 []); (B "constructor_declaration" 437 3537 3672 105 108 [(B "identifier" 438 3537 3554 105 105 [] # "name"); (B "formal_parameters" 439 3554 3564 105 105 [(A "(" 440 3554 3555 105 105 []); (B "formal_parameter" 441 3555 3563 105 105 [(B "type_identifier" 442 3555 3561 105 105 [] # "type"); (B "identifier" 443 3562 3563 105 105 [] # "name")]); (A ")" 444 3563 3564 105 105 [])] # "parameters"); (B "constructor_body" 445 3565 3672 105 108 [(A "{" 446 3565 3566 105 105 []); (C "line_comment" 447 3573 3650 106 106 []); (B "explicit_constructor_invocation" 448 3657 3666 107 107 [(B "super" 449 3657 3662 107 107 [] # "constructor"); (B "argument_list" 450 3662 3665 107 107 [(A "(" 451 3662 3663 107 107 []); (B "identifier" 452 3663 3664 107 107 []); (A ")" 453 3664 3665 107 107 [])] # "arguments"); (A ";" 454 3665 3666 107 107 [])]); (A "}" 455 3671 3672 108 108 [])] # "body")]); (A "}" 456 3675 3676 109 109 [])] # "body")]); (C "line_comment" 457 3680 3704 111 111 []); (B "class_declaration" 458 3707 3992 112 123 [(B "modifiers" 459 3707 3721 112 112 [(B "modifier" 460 3707 3713 112 112 [(B "public" 461 3707 3713 112 112 [(A "public" 462 3707 3713 112 112 [])])]); (B "modifier" 463 3714 3721 112 112 [(B "virtual" 464 3714 3721 112 112 [(A "virtual" 465 3714 3721 112 112 [])])])]); (A "class" 466 3722 3727 112 112 []); (B "identifier" 467 3728 3739 112 112 [] # "name"); (B "superclass" 468 3740 3757 112 112 [(A "extends" 469 3740 3747 112 112 []); (B "type_identifier" 470 3748 3757 112 112 [])]); (B "class_body" 471 3758 3992 112 123 [(A "{" 472 3758 3759 112 112 []); (C "line_comment" 473 3764 3798 113 113 []); (B "field_declaration" 474 3803 3819 114 114 [(B "modifiers" 475 3803 3809 114 114 [(B "modifier" 476 3803 3809 114 114 [(B "public" 477 3803 3809 114 114 [(A "public" 478 3803 3809 114 114 [])])])]); (B "type_identifier" 479 3810 3816 114 114 [] # "type"); (B "variable_declarator" 480 3817 3818 114 114 [(B "identifier" 481 3817 3818 114 114 [] # "name")] # "declarator"); (A ";" 482 3818 3819 114 114 [])]); (C "line_comment" 483 3825 3855 116 116 []); (B "constructor_declaration" 484 3860 3907 117 119 [(B "identifier" 485 3860 3871 117 117 [] # "name"); (B "formal_parameters" 486 3871 3881 117 117 [(A "(" 487 3871 3872 117 117 []); (B "formal_parameter" 488 3872 3880 117 117 [(B "type_identifier" 489 3872 3878 117 117 [] # "type"); (B "identifier" 490 3879 3880 117 117 [] # "name")]); (A ")" 491 3880 3881 117 117 [])] # "parameters"); (B "constructor_body" 492 3882 3907 117 119 [(A "{" 493 3882 3883 117 117 []); (B "expression_statement" 494 3890 3901 118 118 [(B "assignment_expression" 495 3890 3900 118 118 [(B "field_access" 496 3890 3896 118 118 [(B "this" 497 3890 3894 118 118 [] # "object"); (A "." 498 3894 3895 118 118 []); (B "identifier" 499 3895 3896 118 118 [] # "field")] # "left"); (B "assignment_operator" 500 3897 3898 118 118 [(A "=" 501 3897 3898 118 118 [])] # "operator"); (B "identifier" 502 3899 3900 118 118 [] # "right")]); (A ";" 503 3900 3901 118 118 [])]); (A "}" 504 3906 3907 119 119 [])] # "body")]); (C "line_comment" 505 3913 3959 121 121 []); (B "method_declaration" 506 3964 3988 122 122 [(B "modifiers" 507 3964 3973 122 122 [(B "modifier" 508 3964 3973 122 122 [(B "protected" 509 3964 3973 122 122 [(A "protected" 510 3964 3973 122 122 [])])])]); (B "void_type" 511 3974 3978 122 122 [] # "type"); (B "identifier" 512 3979 3983 122 122 [] # "name"); (B "formal_parameters" 513 3983 3985 122 122 [(A "(" 514 3983 3984 122 122 []); (A ")" 515 3984 3985 122 122 [])] # "parameters"); (B "block" 516 3986 3988 122 122 [(A "{" 517 3986 3987 122 122 []); (A "}" 518 3987 3988 122 122 [])] # "body")]); (A "}" 519 3991 3992 123 123 [])] # "body")]); (C "line_comment" 520 3996 4057 125 125 []); (B "class_declaration" 521 4060 4146 126 127 [(B "modifiers" 522 4060 4075 126 126 [(B "modifier" 523 4060 4066 126 126 [(B "public" 524 4060 4066 126 126 [(A "public" 525 4060 4066 126 126 [])])]); (B "modifier" 526 4067 4075 126 126 [(B "abstract" 527 4067 4075 126 126 [(A "abstract" 528 4067 4075 126 126 [])])])]); (A "class" 529 4076 4081 126 126 []); (B "identifier" 530 4082 4099 126 126 [] # "name"); (B "superclass" 531 4100 4117 126 126 [(A "extends" 532 4100 4107 126 126 []); (B "type_identifier" 533 4108 4117 126 126 [])]); (B "interfaces" 534 4118 4140 126 126 [(A "implements" 535 4118 4128 126 126 []); (B "type_list" 536 4129 4140 126 126 [(B "type_identifier" 537 4129 4140 126 126 [])])]); (B "class_body" 538 4141 4146 126 127 [(A "{" 539 4141 4142 126 126 []); (A "}" 540 4145 4146 127 127 [])] # "body")]); (A "}" 541 4147 4148 128 128 [])] # "body")])]).
Example comments_many_comments : as_expected comments_many_comments_source comments_many_comments_tree (U "public class OuterClass {
  // Static final variable (constant) " ++ [8211%N] ++ U " outer class level only
  private static final Integer MY_INT;

  // Non-final static variable - use this to communicate state across triggers
  // within a single request)
  public static String sharedState;

  // Static method - outer class level only
  public static Integer getInt() {
    return MY_INT;
  }

  // Static initialization (can be included where the variable is defined)
  static {
    MY_INT = 2;
  }

  // Member variable for outer class
  private final String m;

  // Instance initialization block - can be done where the variable is declared,
  // or in a constructor
  {
    m = 'a';
  }

  // Because no constructor is explicitly defined in this outer class, an implicit,
  // no-argument, public constructor exists

  // Inner interface
  public virtual interface MyInterface {
    // No access modifier is necessary for interface methods - these are always
    // public or global depending on the interface visibility
    void myMethod();
  }

  // Interface extension
  interface MySecondInterface extends MyInterface {
    Integer method2(Integer i);
  }

  // Inner class - because it is virtual it can be extended.
  // This class implements an interface that, in turn, extends another interface.
  // Consequently the class must implement all methods.
  public virtual class InnerClass implements MySecondInterface {
    // Inner member variables
    private final String s;
    private final String s2;

    // Inner instance initialization block (this code could be located above)
    {
      this.s = 'x';
    }

    // Inline initialization (happens after the block above executes)
    private final Integer i = s.length();

    // Explicit no argument constructor
    InnerClass() {
      // This invokes another constructor that is defined later
      this('none');
    }

    // Constructor that assigns a final variable value
    public InnerClass(String s2) {
      this.s2 = s2;
    }

    // Instance method that implements a method from MyInterface.
    // Because it is declared virtual it can be overridden by a subclass.
    public virtual void myMethod() {
      /* does nothing */
    }

    // Implementation of the second interface method above.
    // This method references member variables (with and without the ""this"" prefix)
    public Integer method2(Integer i) {
      return this.i + s.length();
    }
  }

  // Abstract class (that subclasses the class above). No constructor is needed since
  // parent class has a no-argument constructor
  public abstract class AbstractChildClass extends InnerClass {
    // Override the parent class method with this signature.
    // Must use the override keyword
    public override void myMethod() {
      /* do something else */
    }

    // Same name as parent class method, but different signature.
    // This is a different method (displaying polymorphism) so it does not need
    // to use the override keyword
    protected void method2() {
    }

    // Abstract method - subclasses of this class must implement this method
    abstract Integer abstractMethod();
  }

  // Complete the abstract class by implementing its abstract method
  public class ConcreteChildClass extends AbstractChildClass {
    // Here we expand the visibility of the parent method - note that visibility
    // cannot be restricted by a sub-class
    public override Integer abstractMethod() {
      return 5;
    }
  }

  // A second sub-class of the original InnerClass
  public class AnotherChildClass extends InnerClass {
    AnotherChildClass(String s) {
      // Explicitly invoke a different super constructor than one with no arguments
      super(s);
    }
  }

  // Exception inner class
  public virtual class MyException extends Exception {
    // Exception class member variable
    public Double d;

    // Exception class constructor
    MyException(Double d) {
      this.d = d;
    }

    // Exception class method, marked as protected
    protected void doIt() {
    }
  }

  // Exception classes can be abstract and implement interfaces
  public abstract class MySecondException
    extends Exception implements MyInterface {
  }
}
").
Proof. apply run_test_ok. vm_compute. reflexivity. Qed.

(* tests/comments/post_comments1.in *)
Definition comments_post_comments1_source : ustr := U "Class A{
{
}
}

// line comment

/*
block comment
*/

".
Definition comments_post_comments1_tree : span := (B "parser_output" 1 0 54 0 11 [(B "class_declaration" 2 0 14 0 3 [(A "class" 3 0 5 0 0 []); (B "identifier" 4 6 7 0 0 [] # "name"); (B "class_body" 5 7 14 0 3 [(A "{" 6 7 8 0 0 []); (B "block" 7 9 12 1 2 [(A "{" 8 9 10 1 1 []); (A "}" 9 11 12 2 2 [])]); (A "}" 10 13 14 3 3 [])] # "body")]); (C "line_comment" 11 16 31 5 5 []); (C "block_comment" 12 33 52 7 9 [])]).
Example comments_post_comments1 : as_expected comments_post_comments1_source comments_post_comments1_tree (U "class A {
  {
  }
}

// line comment

/*
block comment
*/
").
Proof. apply run_test_ok. vm_compute. reflexivity. Qed.

(* tests/comments/post_comments2.in *)
Definition comments_post_comments2_source : ustr := U "Class A{
{
}

// line comment

/*
block comment
*/

}

".
Definition comments_post_comments2_tree : span := (B "parser_output" 1 0 55 0 12 [(B "class_declaration" 2 0 53 0 10 [(A "class" 3 0 5 0 0 []); (B "identifier" 4 6 7 0 0 [] # "name"); (B "class_body" 5 7 53 0 10 [(A "{" 6 7 8 0 0 []); (B "block" 7 9 12 1 2 [(A "{" 8 9 10 1 1 []); (A "}" 9 11 12 2 2 [])]); (C "line_comment" 10 14 29 4 4 []); (C "block_comment" 11 31 50 6 8 []); (A "}" 12 52 53 10 10 [])] # "body")])]).
Example comments_post_comments2 : as_expected comments_post_comments2_source comments_post_comments2_tree (U "class A {
  {
  }

  // line comment

  /*
  block comment
  */
}
").
Proof. apply run_test_ok. vm_compute. reflexivity. Qed.

(* tests/comments/post_comments3.in *)
Definition comments_post_comments3_source : ustr := U "public class A {
  public static void hello() {
    System.debug('h');     // test2;
    // test3;
  }
}
".
Definition comments_post_comments3_tree : span := (B "parser_output" 1 0 105 0 6 [(B "class_declaration" 2 0 104 0 5 [(B "modifiers" 3 0 6 0 0 [(B "modifier" 4 0 6 0 0 [(B "public" 5 0 6 0 0 [(A "public" 6 0 6 0 0 [])])])]); (A "class" 7 7 12 0 0 []); (B "identifier" 8 13 14 0 0 [] # "name"); (B "class_body" 9 15 104 0 5 [(A "{" 10 15 16 0 0 []); (B "method_declaration" 11 19 102 1 4 [(B "modifiers" 12 19 32 1 1 [(B "modifier" 13 19 25 1 1 [(B "public" 14 19 25 1 1 [(A "public" 15 19 25 1 1 [])])]); (B "modifier" 16 26 32 1 1 [(B "static" 17 26 32 1 1 [(A "static" 18 26 32 1 1 [])])])]); (B "void_type" 19 33 37 1 1 [] # "type"); (B "identifier" 20 38 43 1 1 [] # "name"); (B "formal_parameters" 21 43 45 1 1 [(A "(" 22 43 44 1 1 []); (A ")" 23 44 45 1 1 [])] # "parameters"); (B "block" 24 46 102 1 4 [(A "{" 25 46 47 1 1 []); (B "expression_statement" 26 52 70 2 2 [(B "method_invocation" 27 52 69 2 2 [(B "identifier" 28 52 58 2 2 [] # "object"); (A "." 29 58 59 2 2 []); (B "identifier" 30 59 64 2 2 [] # "name"); (B "argument_list" 31 64 69 2 2 [(A "(" 32 64 65 2 2 []); (B "string_literal" 33 65 68 2 2 []); (A ")" 34 68 69 2 2 [])] # "arguments")]); (A ";" 35 69 70 2 2 [])]); (C "line_comment" 36 75 84 2 2 []); (C "line_comment" 37 89 98 3 3 []); (A "}" 38 101 102 4 4 [])] # "body")]); (A "}" 39 103 104 5 5 [])] # "body")])]).
Example comments_post_comments3 : as_expected comments_post_comments3_source comments_post_comments3_tree (U "public class A {
  public static void hello() {
    System.debug('h'); // test2;
    // test3;
  }
}
").
Proof. apply run_test_ok. vm_compute. reflexivity. Qed.

(* tests/comments/post_comments4.in *)
Definition comments_post_comments4_source : ustr := U "public class PostComment {
  {
    private final Integer i = s.length();



    // Explicit no argument constructor

  }
}
".
Definition comments_post_comments4_tree : span := (B "parser_output" 1 0 123 0 10 [(B "class_declaration" 2 0 122 0 9 [(B "modifiers" 3 0 6 0 0 [(B "modifier" 4 0 6 0 0 [(B "public" 5 0 6 0 0 [(A "public" 6 0 6 0 0 [])])])]); (A "class" 7 7 12 0 0 []); (B "identifier" 8 13 24 0 0 [] # "name"); (B "class_body" 9 25 122 0 9 [(A "{" 10 25 26 0 0 []); (B "block" 11 29 120 1 8 [(A "{" 12 29 30 1 1 []); (B "local_variable_declaration" 13 35 72 2 2 [(B "modifiers" 14 35 48 2 2 [(B "modifier" 15 35 42 2 2 [(B "private" 16 35 42 2 2 [(A "private" 17 35 42 2 2 [])])]); (B "modifier" 18 43 48 2 2 [(B "final" 19 43 48 2 2 [(A "final" 20 43 48 2 2 [])])])]); (B "type_identifier" 21 49 56 2 2 [] # "type"); (B "variable_declarator" 22 57 71 2 2 [(B "identifier" 23 57 58 2 2 [] # "name"); (B "assignment_operator" 24 59 60 2 2 [(A "=" 25 59 60 2 2 [])]); (B "method_invocation" 26 61 71 2 2 [(B "identifier" 27 61 62 2 2 [] # "object"); (A "." 28 62 63 2 2 []); (B "identifier" 29 63 69 2 2 [] # "name"); (B "argument_list" 30 69 71 2 2 [(A "(" 31 69 70 2 2 []); (A ")" 32 70 71 2 2 [])] # "arguments")] # "value")] # "declarator"); (A ";" 33 71 72 2 2 [])]); (C "line_comment" 34 80 115 6 6 []); (A "}" 35 119 120 8 8 [])]); (A "}" 36 121 122 9 9 [])] # "body")])]).
Example comments_post_comments4 : as_expected comments_post_comments4_source comments_post_comments4_tree (U "public class PostComment {
  {
    private final Integer i = s.length();

    // Explicit no argument constructor
  }
}
").
Proof. apply run_test_ok. vm_compute. reflexivity. Qed.

(* tests/comments/post_comments5.in *)
Definition comments_post_comments5_source : ustr := U "public class PostComment {
  {
    private final Integer i = s.length(); // post



    // Explicit no argument constructor

  }
}
".
Definition comments_post_comments5_tree : span := (B "parser_output" 1 0 131 0 10 [(B "class_declaration" 2 0 130 0 9 [(B "modifiers" 3 0 6 0 0 [(B "modifier" 4 0 6 0 0 [(B "public" 5 0 6 0 0 [(A "public" 6 0 6 0 0 [])])])]); (A "class" 7 7 12 0 0 []); (B "identifier" 8 13 24 0 0 [] # "name"); (B "class_body" 9 25 130 0 9 [(A "{" 10 25 26 0 0 []); (B "block" 11 29 128 1 8 [(A "{" 12 29 30 1 1 []); (B "local_variable_declaration" 13 35 72 2 2 [(B "modifiers" 14 35 48 2 2 [(B "modifier" 15 35 42 2 2 [(B "private" 16 35 42 2 2 [(A "private" 17 35 42 2 2 [])])]); (B "modifier" 18 43 48 2 2 [(B "final" 19 43 48 2 2 [(A "final" 20 43 48 2 2 [])])])]); (B "type_identifier" 21 49 56 2 2 [] # "type"); (B "variable_declarator" 22 57 71 2 2 [(B "identifier" 23 57 58 2 2 [] # "name"); (B "assignment_operator" 24 59 60 2 2 [(A "=" 25 59 60 2 2 [])]); (B "method_invocation" 26 61 71 2 2 [(B "identifier" 27 61 62 2 2 [] # "object"); (A "." 28 62 63 2 2 []); (B "identifier" 29 63 69 2 2 [] # "name"); (B "argument_list" 30 69 71 2 2 [(A "(" 31 69 70 2 2 []); (A ")" 32 70 71 2 2 [])] # "arguments")] # "value")] # "declarator"); (A ";" 33 71 72 2 2 [])]); (C "line_comment" 34 73 80 2 2 []); (C "line_comment" 35 88 123 6 6 []); (A "}" 36 127 128 8 8 [])]); (A "}" 37 129 130 9 9 [])] # "body")])]).
Example comments_post_comments5 : as_expected comments_post_comments5_source comments_post_comments5_tree (U "public class PostComment {
  {
    private final Integer i = s.length(); // post

    // Explicit no argument constructor
  }
}
").
Proof. apply run_test_ok. vm_compute. reflexivity. Qed.

(* tests/comments/post_comments6.in *)
Definition comments_post_comments6_source : ustr := U "public class PostComment {
  {
    private final Integer i = s.length(); /*post1*/



    // Explicit no argument constructor

  }
}
".
Definition comments_post_comments6_tree : span := (B "parser_output" 1 0 133 0 10 [(B "class_declaration" 2 0 132 0 9 [(B "modifiers" 3 0 6 0 0 [(B "modifier" 4 0 6 0 0 [(B "public" 5 0 6 0 0 [(A "public" 6 0 6 0 0 [])])])]); (A "class" 7 7 12 0 0 []); (B "identifier" 8 13 24 0 0 [] # "name"); (B "class_body" 9 25 132 0 9 [(A "{" 10 25 26 0 0 []); (B "block" 11 29 130 1 8 [(A "{" 12 29 30 1 1 []); (B "local_variable_declaration" 13 35 72 2 2 [(B "modifiers" 14 35 48 2 2 [(B "modifier" 15 35 42 2 2 [(B "private" 16 35 42 2 2 [(A "private" 17 35 42 2 2 [])])]); (B "modifier" 18 43 48 2 2 [(B "final" 19 43 48 2 2 [(A "final" 20 43 48 2 2 [])])])]); (B "type_identifier" 21 49 56 2 2 [] # "type"); (B "variable_declarator" 22 57 71 2 2 [(B "identifier" 23 57 58 2 2 [] # "name"); (B "assignment_operator" 24 59 60 2 2 [(A "=" 25 59 60 2 2 [])]); (B "method_invocation" 26 61 71 2 2 [(B "identifier" 27 61 62 2 2 [] # "object"); (A "." 28 62 63 2 2 []); (B "identifier" 29 63 69 2 2 [] # "name"); (B "argument_list" 30 69 71 2 2 [(A "(" 31 69 70 2 2 []); (A ")" 32 70 71 2 2 [])] # "arguments")] # "value")] # "declarator"); (A ";" 33 71 72 2 2 [])]); (C "block_comment" 34 73 82 2 2 []); (C "line_comment" 35 90 125 6 6 []); (A "}" 36 129 130 8 8 [])]); (A "}" 37 131 132 9 9 [])] # "body")])]).
Example comments_post_comments6 : as_expected comments_post_comments6_source comments_post_comments6_tree (U "public class PostComment {
  {
    private final Integer i = s.length(); /*post1*/

    // Explicit no argument constructor
  }
}
").
Proof. apply run_test_ok. vm_compute. reflexivity. Qed.

(* tests/comments/post_comments7.in *)
Definition comments_post_comments7_source : ustr := U "public class PostComment {
  {
    private final Integer i = s.length(); /*post1*//*post2*/
    // Explicit no argument constructor

  }
}
".
Definition comments_post_comments7_tree : span := (B "parser_output" 1 0 139 0 7 [(B "class_declaration" 2 0 138 0 6 [(B "modifiers" 3 0 6 0 0 [(B "modifier" 4 0 6 0 0 [(B "public" 5 0 6 0 0 [(A "public" 6 0 6 0 0 [])])])]); (A "class" 7 7 12 0 0 []); (B "identifier" 8 13 24 0 0 [] # "name"); (B "class_body" 9 25 138 0 6 [(A "{" 10 25 26 0 0 []); (B "block" 11 29 136 1 5 [(A "{" 12 29 30 1 1 []); (B "local_variable_declaration" 13 35 72 2 2 [(B "modifiers" 14 35 48 2 2 [(B "modifier" 15 35 42 2 2 [(B "private" 16 35 42 2 2 [(A "private" 17 35 42 2 2 [])])]); (B "modifier" 18 43 48 2 2 [(B "final" 19 43 48 2 2 [(A "final" 20 43 48 2 2 [])])])]); (B "type_identifier" 21 49 56 2 2 [] # "type"); (B "variable_declarator" 22 57 71 2 2 [(B "identifier" 23 57 58 2 2 [] # "name"); (B "assignment_operator" 24 59 60 2 2 [(A "=" 25 59 60 2 2 [])]); (B "method_invocation" 26 61 71 2 2 [(B "identifier" 27 61 62 2 2 [] # "object"); (A "." 28 62 63 2 2 []); (B "identifier" 29 63 69 2 2 [] # "name"); (B "argument_list" 30 69 71 2 2 [(A "(" 31 69 70 2 2 []); (A ")" 32 70 71 2 2 [])] # "arguments")] # "value")] # "declarator"); (A ";" 33 71 72 2 2 [])]); (C "block_comment" 34 73 82 2 2 []); (C "block_comment" 35 82 91 2 2 []); (C "line_comment" 36 96 131 3 3 []); (A "}" 37 135 136 5 5 [])]); (A "}" 38 137 138 6 6 [])] # "body")])]).
Example comments_post_comments7 : as_expected comments_post_comments7_source comments_post_comments7_tree (U "public class PostComment {
  {
    private final Integer i = s.length(); /*post1*/ /*post2*/
    // Explicit no argument constructor
  }
}
").
Proof. apply run_test_ok. vm_compute. reflexivity. Qed.

(* tests/comments/post_comments8.in *)
Definition comments_post_comments8_source : ustr := U "public class PostComment {
  {
    private final Integer i = s.length(); /*post1*/ //post2



    // Explicit no argument constructor

  }
}
".
Definition comments_post_comments8_tree : span := (B "parser_output" 1 0 141 0 10 [(B "class_declaration" 2 0 140 0 9 [(B "modifiers" 3 0 6 0 0 [(B "modifier" 4 0 6 0 0 [(B "public" 5 0 6 0 0 [(A "public" 6 0 6 0 0 [])])])]); (A "class" 7 7 12 0 0 []); (B "identifier" 8 13 24 0 0 [] # "name"); (B "class_body" 9 25 140 0 9 [(A "{" 10 25 26 0 0 []); (B "block" 11 29 138 1 8 [(A "{" 12 29 30 1 1 []); (B "local_variable_declaration" 13 35 72 2 2 [(B "modifiers" 14 35 48 2 2 [(B "modifier" 15 35 42 2 2 [(B "private" 16 35 42 2 2 [(A "private" 17 35 42 2 2 [])])]); (B "modifier" 18 43 48 2 2 [(B "final" 19 43 48 2 2 [(A "final" 20 43 48 2 2 [])])])]); (B "type_identifier" 21 49 56 2 2 [] # "type"); (B "variable_declarator" 22 57 71 2 2 [(B "identifier" 23 57 58 2 2 [] # "name"); (B "assignment_operator" 24 59 60 2 2 [(A "=" 25 59 60 2 2 [])]); (B "method_invocation" 26 61 71 2 2 [(B "identifier" 27 61 62 2 2 [] # "object"); (A "." 28 62 63 2 2 []); (B "identifier" 29 63 69 2 2 [] # "name"); (B "argument_list" 30 69 71 2 2 [(A "(" 31 69 70 2 2 []); (A ")" 32 70 71 2 2 [])] # "arguments")] # "value")] # "declarator"); (A ";" 33 71 72 2 2 [])]); (C "block_comment" 34 73 82 2 2 []); (C "line_comment" 35 83 90 2 2 []); (C "line_comment" 36 98 133 6 6 []); (A "}" 37 137 138 8 8 [])]); (A "}" 38 139 140 9 9 [])] # "body")])]).
Example comments_post_comments8 : as_expected comments_post_comments8_source comments_post_comments8_tree (U "public class PostComment {
  {
    private final Integer i = s.length(); /*post1*/ //post2

    // Explicit no argument constructor
  }
}
").
Proof. apply run_test_ok. vm_compute. reflexivity. Qed.

(* tests/comments/post_comments9.in *)
Definition comments_post_comments9_source : ustr := U "public class PostComment {
  {
    private final Integer i = s.length(); //post
    // Explicit no argument constructor
  }
}
".
Definition comments_post_comments9_tree : span := (B "parser_output" 1 0 126 0 6 [(B "class_declaration" 2 0 125 0 5 [(B "modifiers" 3 0 6 0 0 [(B "modifier" 4 0 6 0 0 [(B "public" 5 0 6 0 0 [(A "public" 6 0 6 0 0 [])])])]); (A "class" 7 7 12 0 0 []); (B "identifier" 8 13 24 0 0 [] # "name"); (B "class_body" 9 25 125 0 5 [(A "{" 10 25 26 0 0 []); (B "block" 11 29 123 1 4 [(A "{" 12 29 30 1 1 []); (B "local_variable_declaration" 13 35 72 2 2 [(B "modifiers" 14 35 48 2 2 [(B "modifier" 15 35 42 2 2 [(B "private" 16 35 42 2 2 [(A "private" 17 35 42 2 2 [])])]); (B "modifier" 18 43 48 2 2 [(B "final" 19 43 48 2 2 [(A "final" 20 43 48 2 2 [])])])]); (B "type_identifier" 21 49 56 2 2 [] # "type"); (B "variable_declarator" 22 57 71 2 2 [(B "identifier" 23 57 58 2 2 [] # "name"); (B "assignment_operator" 24 59 60 2 2 [(A "=" 25 59 60 2 2 [])]); (B "method_invocation" 26 61 71 2 2 [(B "identifier" 27 61 62 2 2 [] # "object"); (A "." 28 62 63 2 2 []); (B "identifier" 29 63 69 2 2 [] # "name"); (B "argument_list" 30 69 71 2 2 [(A "(" 31 69 70 2 2 []); (A ")" 32 70 71 2 2 [])] # "arguments")] # "value")] # "declarator"); (A ";" 33 71 72 2 2 [])]); (C "line_comment" 34 73 79 2 2 []); (C "line_comment" 35 84 119 3 3 []); (A "}" 36 122 123 4 4 [])]); (A "}" 37 124 125 5 5 [])] # "body")])]).
Example comments_post_comments9 : as_expected comments_post_comments9_source comments_post_comments9_tree (U "public class PostComment {
  {
    private final Integer i = s.length(); //post
    // Explicit no argument constructor
  }
}
").
Proof. apply run_test_ok. vm_compute. reflexivity. Qed.

(* tests/comments/pre_comments1.in *)
Definition comments_pre_comments1_source : ustr := U "// line comment

/*
block comment
*/

Class A{
{
}
}
".
Definition comments_pre_comments1_tree : span := (B "parser_output" 1 0 53 0 10 [(C "line_comment" 2 0 15 0 0 []); (C "block_comment" 3 17 36 2 4 []); (B "class_declaration" 4 38 52 6 9 [(A "class" 5 38 43 6 6 []); (B "identifier" 6 44 45 6 6 [] # "name"); (B "class_body" 7 45 52 6 9 [(A "{" 8 45 46 6 6 []); (B "block" 9 47 50 7 8 [(A "{" 10 47 48 7 7 []); (A "}" 11 49 50 8 8 [])]); (A "}" 12 51 52 9 9 [])] # "body")])]).
Example comments_pre_comments1 : as_expected comments_pre_comments1_source comments_pre_comments1_tree (U "// line comment

/*
block comment
*/

class A {
  {
  }
}
").
Proof. apply run_test_ok. vm_compute. reflexivity. Qed.

(* tests/comments/pre_comments10.in *)
Definition comments_pre_comments10_source : ustr := U "public class PreComments {
  {

    /*pre*/
    /*pre2*/private final Integer i = s.length();

  }
}
".
Definition comments_pre_comments10_tree : span := (B "parser_output" 1 0 101 0 8 [(B "class_declaration" 2 0 100 0 7 [(B "modifiers" 3 0 6 0 0 [(B "modifier" 4 0 6 0 0 [(B "public" 5 0 6 0 0 [(A "public" 6 0 6 0 0 [])])])]); (A "class" 7 7 12 0 0 []); (B "identifier" 8 13 24 0 0 [] # "name"); (B "class_body" 9 25 100 0 7 [(A "{" 10 25 26 0 0 []); (B "block" 11 29 98 1 6 [(A "{" 12 29 30 1 1 []); (C "block_comment" 13 36 43 3 3 []); (C "block_comment" 14 48 56 4 4 []); (B "local_variable_declaration" 15 56 93 4 4 [(B "modifiers" 16 56 69 4 4 [(B "modifier" 17 56 63 4 4 [(B "private" 18 56 63 4 4 [(A "private" 19 56 63 4 4 [])])]); (B "modifier" 20 64 69 4 4 [(B "final" 21 64 69 4 4 [(A "final" 22 64 69 4 4 [])])])]); (B "type_identifier" 23 70 77 4 4 [] # "type"); (B "variable_declarator" 24 78 92 4 4 [(B "identifier" 25 78 79 4 4 [] # "name"); (B "assignment_operator" 26 80 81 4 4 [(A "=" 27 80 81 4 4 [])]); (B "method_invocation" 28 82 92 4 4 [(B "identifier" 29 82 83 4 4 [] # "object"); (A "." 30 83 84 4 4 []); (B "identifier" 31 84 90 4 4 [] # "name"); (B "argument_list" 32 90 92 4 4 [(A "(" 33 90 91 4 4 []); (A ")" 34 91 92 4 4 [])] # "arguments")] # "value")] # "declarator"); (A ";" 35 92 93 4 4 [])]); (A "}" 36 97 98 6 6 [])]); (A "}" 37 99 100 7 7 [])] # "body")])]).
Example comments_pre_comments10 : as_expected comments_pre_comments10_source comments_pre_comments10_tree (U "public class PreComments {
  {
    /*pre*/
    /*pre2*/ private final Integer i = s.length();
  }
}
").
Proof. apply run_test_ok. vm_compute. reflexivity. Qed.

(* tests/comments/pre_comments11.in *)
Definition comments_pre_comments11_source : ustr := U "public class PreComments {
  {

    //pre

    /*pre2*/ private final Integer i = s.length();
  }
}
".
Definition comments_pre_comments11_tree : span := (B "parser_output" 1 0 100 0 8 [(B "class_declaration" 2 0 99 0 7 [(B "modifiers" 3 0 6 0 0 [(B "modifier" 4 0 6 0 0 [(B "public" 5 0 6 0 0 [(A "public" 6 0 6 0 0 [])])])]); (A "class" 7 7 12 0 0 []); (B "identifier" 8 13 24 0 0 [] # "name"); (B "class_body" 9 25 99 0 7 [(A "{" 10 25 26 0 0 []); (B "block" 11 29 97 1 6 [(A "{" 12 29 30 1 1 []); (C "line_comment" 13 36 41 3 3 []); (C "block_comment" 14 47 55 5 5 []); (B "local_variable_declaration" 15 56 93 5 5 [(B "modifiers" 16 56 69 5 5 [(B "modifier" 17 56 63 5 5 [(B "private" 18 56 63 5 5 [(A "private" 19 56 63 5 5 [])])]); (B "modifier" 20 64 69 5 5 [(B "final" 21 64 69 5 5 [(A "final" 22 64 69 5 5 [])])])]); (B "type_identifier" 23 70 77 5 5 [] # "type"); (B "variable_declarator" 24 78 92 5 5 [(B "identifier" 25 78 79 5 5 [] # "name"); (B "assignment_operator" 26 80 81 5 5 [(A "=" 27 80 81 5 5 [])]); (B "method_invocation" 28 82 92 5 5 [(B "identifier" 29 82 83 5 5 [] # "object"); (A "." 30 83 84 5 5 []); (B "identifier" 31 84 90 5 5 [] # "name"); (B "argument_list" 32 90 92 5 5 [(A "(" 33 90 91 5 5 []); (A ")" 34 91 92 5 5 [])] # "arguments")] # "value")] # "declarator"); (A ";" 35 92 93 5 5 [])]); (A "}" 36 96 97 6 6 [])]); (A "}" 37 98 99 7 7 [])] # "body")])]).
Example comments_pre_comments11 : as_expected comments_pre_comments11_source comments_pre_comments11_tree (U "public class PreComments {
  {
    //pre

    /*pre2*/ private final Integer i = s.length();
  }
}
").
Proof. apply run_test_ok. vm_compute. reflexivity. Qed.

(* tests/comments/pre_comments12.in *)
Definition comments_pre_comments12_source : ustr := U "public class PreComments {
  {

    //pre

    //pre
    //pre


    /*pre2*/    /*pre3*/
    /*pre4*/ 

    //pre5

    private final Integer i = s.length();
  }
}
".
Definition comments_pre_comments12_tree : span := (B "parser_output" 1 0 165 0 17 [(B "class_declaration" 2 0 164 0 16 [(B "modifiers" 3 0 6 0 0 [(B "modifier" 4 0 6 0 0 [(B "public" 5 0 6 0 0 [(A "public" 6 0 6 0 0 [])])])]); (A "class" 7 7 12 0 0 []); (B "identifier" 8 13 24 0 0 [] # "name"); (B "class_body" 9 25 164 0 16 [(A "{" 10 25 26 0 0 []); (B "block" 11 29 162 1 15 [(A "{" 12 29 30 1 1 []); (C "line_comment" 13 36 41 3 3 []); (C "line_comment" 14 47 52 5 5 []); (C "line_comment" 15 57 62 6 6 []); (C "block_comment" 16 69 77 9 9 []); (C "block_comment" 17 81 89 9 9 []); (C "block_comment" 18 94 102 10 10 []); (C "line_comment" 19 109 115 12 12 []); (B "local_variable_declaration" 20 121 158 14 14 [(B "modifiers" 21 121 134 14 14 [(B "modifier" 22 121 128 14 14 [(B "private" 23 121 128 14 14 [(A "private" 24 121 128 14 14 [])])]); (B "modifier" 25 129 134 14 14 [(B "final" 26 129 134 14 14 [(A "final" 27 129 134 14 14 [])])])]); (B "type_identifier" 28 135 142 14 14 [] # "type"); (B "variable_declarator" 29 143 157 14 14 [(B "identifier" 30 143 144 14 14 [] # "name"); (B "assignment_operator" 31 145 146 14 14 [(A "=" 32 145 146 14 14 [])]); (B "method_invocation" 33 147 157 14 14 [(B "identifier" 34 147 148 14 14 [] # "object"); (A "." 35 148 149 14 14 []); (B "identifier" 36 149 155 14 14 [] # "name"); (B "argument_list" 37 155 157 14 14 [(A "(" 38 155 156 14 14 []); (A ")" 39 156 157 14 14 [])] # "arguments")] # "value")] # "declarator"); (A ";" 40 157 158 14 14 [])]); (A "}" 41 161 162 15 15 [])]); (A "}" 42 163 164 16 16 [])] # "body")])]).
Example comments_pre_comments12 : as_expected comments_pre_comments12_source comments_pre_comments12_tree (U "public class PreComments {
  {
    //pre

    //pre
    //pre

    /*pre2*/ /*pre3*/
    /*pre4*/

    //pre5

    private final Integer i = s.length();
  }
}
").
Proof. apply run_test_ok. vm_compute. reflexivity. Qed.

(* tests/comments/pre_comments2.in *)
Definition comments_pre_comments2_source : ustr := U "// line comment
/*
block comment
*/
Class A{
{
}
}
".
Definition comments_pre_comments2_tree : span := (B "parser_output" 1 0 51 0 8 [(C "line_comment" 2 0 15 0 0 []); (C "block_comment" 3 16 35 1 3 []); (B "class_declaration" 4 36 50 4 7 [(A "class" 5 36 41 4 4 []); (B "identifier" 6 42 43 4 4 [] # "name"); (B "class_body" 7 43 50 4 7 [(A "{" 8 43 44 4 4 []); (B "block" 9 45 48 5 6 [(A "{" 10 45 46 5 5 []); (A "}" 11 47 48 6 6 [])]); (A "}" 12 49 50 7 7 [])] # "body")])]).
Example comments_pre_comments2 : as_expected comments_pre_comments2_source comments_pre_comments2_tree (U "// line comment
/*
block comment
*/
class A {
  {
  }
}
").
Proof. apply run_test_ok. vm_compute. reflexivity. Qed.

(* tests/comments/pre_comments3.in *)
Definition comments_pre_comments3_source : ustr := U "



// line comment



/*
block comment
*/



Class A{
{
}
}
".
Definition comments_pre_comments3_tree : span := (B "parser_output" 1 4 61 4 18 [(C "line_comment" 2 4 19 4 4 []); (C "block_comment" 3 23 42 8 10 []); (B "class_declaration" 4 46 60 14 17 [(A "class" 5 46 51 14 14 []); (B "identifier" 6 52 53 14 14 [] # "name"); (B "class_body" 7 53 60 14 17 [(A "{" 8 53 54 14 14 []); (B "block" 9 55 58 15 16 [(A "{" 10 55 56 15 15 []); (A "}" 11 57 58 16 16 [])]); (A "}" 12 59 60 17 17 [])] # "body")])]).
Example comments_pre_comments3 : as_expected comments_pre_comments3_source comments_pre_comments3_tree (U "// line comment

/*
block comment
*/

class A {
  {
  }
}
").
Proof. apply run_test_ok. vm_compute. reflexivity. Qed.

(* tests/comments/pre_comments4.in *)
Definition comments_pre_comments4_source : ustr := U "
/*
block comment
*/ // line comment

class A {
  {
  }
}
".
Definition comments_pre_comments4_tree : span := (B "parser_output" 1 1 58 1 9 [(C "block_comment" 2 1 20 1 3 []); (C "line_comment" 3 21 36 3 3 []); (B "class_declaration" 4 38 57 5 8 [(A "class" 5 38 43 5 5 []); (B "identifier" 6 44 45 5 5 [] # "name"); (B "class_body" 7 46 57 5 8 [(A "{" 8 46 47 5 5 []); (B "block" 9 50 55 6 7 [(A "{" 10 50 51 6 6 []); (A "}" 11 54 55 7 7 [])]); (A "}" 12 56 57 8 8 [])] # "body")])]).
Example comments_pre_comments4 : as_expected comments_pre_comments4_source comments_pre_comments4_tree (U "/*
block comment
*/ // line comment

class A {
  {
  }
}
").
Proof. apply run_test_ok. vm_compute. reflexivity. Qed.

(* tests/comments/pre_comments5.in *)
Definition comments_pre_comments5_source : ustr := U "
Class A{
// line comment

/*
block comment
*/
{
}
}
".
Definition comments_pre_comments5_tree : span := (B "parser_output" 1 1 53 1 10 [(B "class_declaration" 2 1 52 1 9 [(A "class" 3 1 6 1 1 []); (B "identifier" 4 7 8 1 1 [] # "name"); (B "class_body" 5 8 52 1 9 [(A "{" 6 8 9 1 1 []); (C "line_comment" 7 10 25 2 2 []); (C "block_comment" 8 27 46 4 6 []); (B "block" 9 47 50 7 8 [(A "{" 10 47 48 7 7 []); (A "}" 11 49 50 8 8 [])]); (A "}" 12 51 52 9 9 [])] # "body")])]).
Example comments_pre_comments5 : as_expected comments_pre_comments5_source comments_pre_comments5_tree (U "class A {
  // line comment

  /*
  block comment
  */
  {
  }
}
").
Proof. apply run_test_ok. vm_compute. reflexivity. Qed.

(* tests/comments/pre_comments6.in *)
Definition comments_pre_comments6_source : ustr := U "Class A{

// d1

/*
d2
*/


{

}
}
".
Definition comments_pre_comments6_tree : span := (B "parser_output" 1 0 35 0 13 [(B "class_declaration" 2 0 34 0 12 [(A "class" 3 0 5 0 0 []); (B "identifier" 4 6 7 0 0 [] # "name"); (B "class_body" 5 7 34 0 12 [(A "{" 6 7 8 0 0 []); (C "line_comment" 7 10 15 2 2 []); (C "block_comment" 8 17 25 4 6 []); (B "block" 9 28 32 9 11 [(A "{" 10 28 29 9 9 []); (A "}" 11 31 32 11 11 [])]); (A "}" 12 33 34 12 12 [])] # "body")])]).
Example comments_pre_comments6 : as_expected comments_pre_comments6_source comments_pre_comments6_tree (U "class A {
  // d1

  /*
  d2
  */

  {
  }
}
").
Proof. apply run_test_ok. vm_compute. reflexivity. Qed.

(* tests/comments/pre_comments7.in *)
Definition comments_pre_comments7_source : ustr := U "public class PreComments {
  {

    //pre1

    private final Integer i = s.length();

  }
}
".
Definition comments_pre_comments7_tree : span := (B "parser_output" 1 0 93 0 9 [(B "class_declaration" 2 0 92 0 8 [(B "modifiers" 3 0 6 0 0 [(B "modifier" 4 0 6 0 0 [(B "public" 5 0 6 0 0 [(A "public" 6 0 6 0 0 [])])])]); (A "class" 7 7 12 0 0 []); (B "identifier" 8 13 24 0 0 [] # "name"); (B "class_body" 9 25 92 0 8 [(A "{" 10 25 26 0 0 []); (B "block" 11 29 90 1 7 [(A "{" 12 29 30 1 1 []); (C "line_comment" 13 36 42 3 3 []); (B "local_variable_declaration" 14 48 85 5 5 [(B "modifiers" 15 48 61 5 5 [(B "modifier" 16 48 55 5 5 [(B "private" 17 48 55 5 5 [(A "private" 18 48 55 5 5 [])])]); (B "modifier" 19 56 61 5 5 [(B "final" 20 56 61 5 5 [(A "final" 21 56 61 5 5 [])])])]); (B "type_identifier" 22 62 69 5 5 [] # "type"); (B "variable_declarator" 23 70 84 5 5 [(B "identifier" 24 70 71 5 5 [] # "name"); (B "assignment_operator" 25 72 73 5 5 [(A "=" 26 72 73 5 5 [])]); (B "method_invocation" 27 74 84 5 5 [(B "identifier" 28 74 75 5 5 [] # "object"); (A "." 29 75 76 5 5 []); (B "identifier" 30 76 82 5 5 [] # "name"); (B "argument_list" 31 82 84 5 5 [(A "(" 32 82 83 5 5 []); (A ")" 33 83 84 5 5 [])] # "arguments")] # "value")] # "declarator"); (A ";" 34 84 85 5 5 [])]); (A "}" 35 89 90 7 7 [])]); (A "}" 36 91 92 8 8 [])] # "body")])]).
Example comments_pre_comments7 : as_expected comments_pre_comments7_source comments_pre_comments7_tree (U "public class PreComments {
  {
    //pre1

    private final Integer i = s.length();
  }
}
").
Proof. apply run_test_ok. vm_compute. reflexivity. Qed.

(* tests/comments/pre_comments8.in *)
Definition comments_pre_comments8_source : ustr := U "public class PreComments {
  {

    //pre1
    private final Integer i = s.length();

  }
}
".
Definition comments_pre_comments8_tree : span := (B "parser_output" 1 0 92 0 8 [(B "class_declaration" 2 0 91 0 7 [(B "modifiers" 3 0 6 0 0 [(B "modifier" 4 0 6 0 0 [(B "public" 5 0 6 0 0 [(A "public" 6 0 6 0 0 [])])])]); (A "class" 7 7 12 0 0 []); (B "identifier" 8 13 24 0 0 [] # "name"); (B "class_body" 9 25 91 0 7 [(A "{" 10 25 26 0 0 []); (B "block" 11 29 89 1 6 [(A "{" 12 29 30 1 1 []); (C "line_comment" 13 36 42 3 3 []); (B "local_variable_declaration" 14 47 84 4 4 [(B "modifiers" 15 47 60 4 4 [(B "modifier" 16 47 54 4 4 [(B "private" 17 47 54 4 4 [(A "private" 18 47 54 4 4 [])])]); (B "modifier" 19 55 60 4 4 [(B "final" 20 55 60 4 4 [(A "final" 21 55 60 4 4 [])])])]); (B "type_identifier" 22 61 68 4 4 [] # "type"); (B "variable_declarator" 23 69 83 4 4 [(B "identifier" 24 69 70 4 4 [] # "name"); (B "assignment_operator" 25 71 72 4 4 [(A "=" 26 71 72 4 4 [])]); (B "method_invocation" 27 73 83 4 4 [(B "identifier" 28 73 74 4 4 [] # "object"); (A "." 29 74 75 4 4 []); (B "identifier" 30 75 81 4 4 [] # "name"); (B "argument_list" 31 81 83 4 4 [(A "(" 32 81 82 4 4 []); (A ")" 33 82 83 4 4 [])] # "arguments")] # "value")] # "declarator"); (A ";" 34 83 84 4 4 [])]); (A "}" 35 88 89 6 6 [])]); (A "}" 36 90 91 7 7 [])] # "body")])]).
Example comments_pre_comments8 : as_expected comments_pre_comments8_source comments_pre_comments8_tree (U "public class PreComments {
  {
    //pre1
    private final Integer i = s.length();
  }
}
").
Proof. apply run_test_ok. vm_compute. reflexivity. Qed.

(* tests/comments/pre_comments9.in *)
Definition comments_pre_comments9_source : ustr := U "public class PreComments {
  {

    /*pre*/
    private final Integer i = s.length();

  }
}
".
Definition comments_pre_comments9_tree : span := (B "parser_output" 1 0 93 0 8 [(B "class_declaration" 2 0 92 0 7 [(B "modifiers" 3 0 6 0 0 [(B "modifier" 4 0 6 0 0 [(B "public" 5 0 6 0 0 [(A "public" 6 0 6 0 0 [])])])]); (A "class" 7 7 12 0 0 []); (B "identifier" 8 13 24 0 0 [] # "name"); (B "class_body" 9 25 92 0 7 [(A "{" 10 25 26 0 0 []); (B "block" 11 29 90 1 6 [(A "{" 12 29 30 1 1 []); (C "block_comment" 13 36 43 3 3 []); (B "local_variable_declaration" 14 48 85 4 4 [(B "modifiers" 15 48 61 4 4 [(B "modifier" 16 48 55 4 4 [(B "private" 17 48 55 4 4 [(A "private" 18 48 55 4 4 [])])]); (B "modifier" 19 56 61 4 4 [(B "final" 20 56 61 4 4 [(A "final" 21 56 61 4 4 [])])])]); (B "type_identifier" 22 62 69 4 4 [] # "type"); (B "variable_declarator" 23 70 84 4 4 [(B "identifier" 24 70 71 4 4 [] # "name"); (B "assignment_operator" 25 72 73 4 4 [(A "=" 26 72 73 4 4 [])]); (B "method_invocation" 27 74 84 4 4 [(B "identifier" 28 74 75 4 4 [] # "object"); (A "." 29 75 76 4 4 []); (B "identifier" 30 76 82 4 4 [] # "name"); (B "argument_list" 31 82 84 4 4 [(A "(" 32 82 83 4 4 []); (A ")" 33 83 84 4 4 [])] # "arguments")] # "value")] # "declarator"); (A ";" 34 84 85 4 4 [])]); (A "}" 35 89 90 6 6 [])]); (A "}" 36 91 92 7 7 [])] # "body")])]).
Example comments_pre_comments9 : as_expected comments_pre_comments9_source comments_pre_comments9_tree (U "public class PreComments {
  {
    /*pre*/
    private final Integer i = s.length();
  }
}
").
Proof. apply run_test_ok. vm_compute. reflexivity. Qed.

(* tests/comments/pre_dangling_comments1.in *)
Definition comments_pre_dangling_comments1_source : ustr := U "Class A{

// d1

      //d2

/*
d2
*/


{

//d3

}
}
".
Definition comments_pre_dangling_comments1_tree : span := (B "parser_output" 1 0 53 0 17 [(B "class_declaration" 2 0 52 0 16 [(A "class" 3 0 5 0 0 []); (B "identifier" 4 6 7 0 0 [] # "name"); (B "class_body" 5 7 52 0 16 [(A "{" 6 7 8 0 0 []); (C "line_comment" 7 10 15 2 2 []); (C "line_comment" 8 23 27 4 4 []); (C "block_comment" 9 29 37 6 8 []); (B "block" 10 40 50 11 15 [(A "{" 11 40 41 11 11 []); (C "line_comment" 12 43 47 13 13 []); (A "}" 13 49 50 15 15 [])]); (A "}" 14 51 52 16 16 [])] # "body")])]).
Example comments_pre_dangling_comments1 : as_expected comments_pre_dangling_comments1_source comments_pre_dangling_comments1_tree (U "class A {
  // d1

  //d2

  /*
  d2
  */

  {
    //d3
  }
}
").
Proof. apply run_test_ok. vm_compute. reflexivity. Qed.

(* tests/comments/wrappable_with_comment1.in *)
Definition comments_wrappable_with_comment1_source : ustr := U "public class AA {
  {
    if(a || b || c || d) { // a very long comment making the line exceeds. Do we wrap the binary expression?
    }
  }
}

".
Definition comments_wrappable_with_comment1_tree : span := (B "parser_output" 1 0 144 0 7 [(B "class_declaration" 2 0 142 0 5 [(B "modifiers" 3 0 6 0 0 [(B "modifier" 4 0 6 0 0 [(B "public" 5 0 6 0 0 [(A "public" 6 0 6 0 0 [])])])]); (A "class" 7 7 12 0 0 []); (B "identifier" 8 13 15 0 0 [] # "name"); (B "class_body" 9 16 142 0 5 [(A "{" 10 16 17 0 0 []); (B "block" 11 20 140 1 4 [(A "{" 12 20 21 1 1 []); (B "if_statement" 13 26 136 2 3 [(A "if" 14 26 28 2 2 []); (B "parenthesized_expression" 15 28 46 2 2 [(A "(" 16 28 29 2 2 []); (B "binary_expression" 17 29 45 2 2 [(B "binary_expression" 18 29 40 2 2 [(B "binary_expression" 19 29 35 2 2 [(B "identifier" 20 29 30 2 2 [] # "left"); (A "||" 21 31 33 2 2 [] # "operator"); (B "identifier" 22 34 35 2 2 [] # "right")] # "left"); (A "||" 23 36 38 2 2 [] # "operator"); (B "identifier" 24 39 40 2 2 [] # "right")] # "left"); (A "||" 25 41 43 2 2 [] # "operator"); (B "identifier" 26 44 45 2 2 [] # "right")]); (A ")" 27 45 46 2 2 [])] # "condition"); (B "block" 28 47 136 2 3 [(A "{" 29 47 48 2 2 []); (C "line_comment" 30 49 130 2 2 []); (A "}" 31 135 136 3 3 [])] # "consequence")]); (A "}" 32 139 140 4 4 [])]); (A "}" 33 141 142 5 5 [])] # "body")])]).
Example comments_wrappable_with_comment1 : as_expected comments_wrappable_with_comment1_source comments_wrappable_with_comment1_tree (U "public class AA {
  {
    if (a || b || c || d) {
      // a very long comment making the line exceeds. Do we wrap the binary expression?
    }
  }
}
").
Proof. apply run_test_ok. vm_compute. reflexivity. Qed.

(* the trees of this file *)
Definition trees : list node :=
  [grow 0 comments_BlockTrailingCommentAfterEnum_source comments_BlockTrailingCommentAfterEnum_tree;
   grow 0 comments_BlockTrailingCommentAfterInterface_source comments_BlockTrailingCommentAfterInterface_tree;
   grow 0 comments_BlockTrailingCommentAfterTrigger_source comments_BlockTrailingCommentAfterTrigger_tree;
   grow 0 comments_ClassDeclarationWithBlockComment_source comments_ClassDeclarationWithBlockComment_tree;
   grow 0 comments_ClassDeclarationWithInlineComment_source comments_ClassDeclarationWithInlineComment_tree;
   grow 0 comments_ClassDeclarationWithMixedComments_source comments_ClassDeclarationWithMixedComments_tree;
   grow 0 comments_CommentsBeforeInterfaceDeclaration_source comments_CommentsBeforeInterfaceDeclaration_tree;
   grow 0 comments_CommentsBeforeTriggerDeclaration_source comments_CommentsBeforeTriggerDeclaration_tree;
   grow 0 comments_CommentsDanglingInBlockStatement_source comments_CommentsDanglingInBlockStatement_tree;
   grow 0 comments_CommentsDanglingInClass_source comments_CommentsDanglingInClass_tree;
   grow 0 comments_CommentsDanglingInEnum_source comments_CommentsDanglingInEnum_tree;
   grow 0 comments_CommentsDanglingInInterface_source comments_CommentsDanglingInInterface_tree;
   grow 0 comments_CommentsDanglingInTrigger_source comments_CommentsDanglingInTrigger_tree;
   grow 0 comments_InlineTrailingCommentAferEnum_source comments_InlineTrailingCommentAferEnum_tree;
   grow 0 comments_InlineTrailingCommentAfterClass_source comments_InlineTrailingCommentAfterClass_tree;
   grow 0 comments_InlineTrailingCommentAfterInterface_source comments_InlineTrailingCommentAfterInterface_tree;
   grow 0 comments_InlineTrailingCommentAfterTrigger_source comments_InlineTrailingCommentAfterTrigger_tree;
   grow 0 comments_all_comments_source comments_all_comments_tree;
   grow 0 comments_annotation_comment_source comments_annotation_comment_tree;
   grow 0 comments_before_bracket_source comments_before_bracket_tree;
   grow 0 comments_block_c2_source comments_block_c2_tree;
   grow 0 comments_block_c3_source comments_block_c3_tree;
   grow 0 comments_block_c4_source comments_block_c4_tree;
   grow 0 comments_c7_source comments_c7_tree;
   grow 0 comments_comment1_source comments_comment1_tree;
   grow 0 comments_comment11_source comments_comment11_tree;
   grow 0 comments_comment2_source comments_comment2_tree;
   grow 0 comments_comment_force_line_wrap1_source comments_comment_force_line_wrap1_tree;
   grow 0 comments_comment_force_line_wrap2_source comments_comment_force_line_wrap2_tree;
   grow 0 comments_comment_with_trailing_spaces_source comments_comment_with_trailing_spaces_tree;
   grow 0 comments_comments3_source comments_comments3_tree;
   grow 0 comments_comments_in_names_source comments_comments_in_names_tree;
   grow 0 comments_dangling_comments1_source comments_dangling_comments1_tree;
   grow 0 comments_empty_body_comments_source comments_empty_body_comments_tree;
   grow 0 comments_java_doc_source comments_java_doc_tree;
   grow 0 comments_line_comment_and_punctuation1_source comments_line_comment_and_punctuation1_tree;
   grow 0 comments_many_comments_source comments_many_comments_tree;
   grow 0 comments_post_comments1_source comments_post_comments1_tree;
   grow 0 comments_post_comments2_source comments_post_comments2_tree;
   grow 0 comments_post_comments3_source comments_post_comments3_tree;
   grow 0 comments_post_comments4_source comments_post_comments4_tree;
   grow 0 comments_post_comments5_source comments_post_comments5_tree;
   grow 0 comments_post_comments6_source comments_post_comments6_tree;
   grow 0 comments_post_comments7_source comments_post_comments7_tree;
   grow 0 comments_post_comments8_source comments_post_comments8_tree;
   grow 0 comments_post_comments9_source comments_post_comments9_tree;
   grow 0 comments_pre_comments1_source comments_pre_comments1_tree;
   grow 0 comments_pre_comments10_source comments_pre_comments10_tree;
   grow 0 comments_pre_comments11_source comments_pre_comments11_tree;
   grow 0 comments_pre_comments12_source comments_pre_comments12_tree;
   grow 0 comments_pre_comments2_source comments_pre_comments2_tree;
   grow 0 comments_pre_comments3_source comments_pre_comments3_tree;
   grow 0 comments_pre_comments4_source comments_pre_comments4_tree;
   grow 0 comments_pre_comments5_source comments_pre_comments5_tree;
   grow 0 comments_pre_comments6_source comments_pre_comments6_tree;
   grow 0 comments_pre_comments7_source comments_pre_comments7_tree;
   grow 0 comments_pre_comments8_source comments_pre_comments8_tree;
   grow 0 comments_pre_comments9_source comments_pre_comments9_tree;
   grow 0 comments_pre_dangling_comments1_source comments_pre_dangling_comments1_tree;
   grow 0 comments_wrappable_with_comment1_source comments_wrappable_with_comment1_tree].
