(* Written by conformance/gen.py. Each Example is one test of the project: the source is the text
   of the .in file named above it, the tree is the one conformance/apex.py reads from that text, and
   the expected text is the .cls file beside it. tests/test.rs runs the same comparison. *)
From Coq Require Import List String NArith.
From Verif Require Import Base Cst ConfTrees.
Import ListNotations.
Local Open Scope string_scope.
Local Open Scope list_scope.

(* tests/prettier80/Trigger.in *)
Definition prettier80_Trigger_source : ustr := U "trigger myAccountTrigger on Account(before delete, before insert, before update,
  after delete, after insert, after update, after undelete) {
  System.debug('Inside trigger');
  if (Trigger.isBefore) {
    if (Trigger.isDelete) {

      for (Account a : Trigger.old) {
        if (a.name != 'okToDelete') {
          a.addError('You can\'t delete this record!');
        }
      }
    } else {

      for (Account a : Trigger.new) {
        if (a.name == 'bad') {
          a.name.addError('Bad name');
        }
      }
      if (Trigger.isInsert) {
        for (Account a : Trigger.new) {
          System.debug('New');
        }
      } else {
        if (Trigger.isInsert) {
          List<Contact> contacts = new List<Contact>();
          for (Account a : Trigger.new) {
            if(a.Name == 'makeContact') {
              System.debug('Make Contact');
            }
          }
        }
      }
    }}}
".
Definition prettier80_Trigger_tree : span := (B "parser_output" 1 0 916 0 33 [(B "trigger_declaration" 2 0 915 0 32 [(A "trigger" 3 0 7 0 0 []); (B "identifier" 4 8 24 0 0 [] # "name"); (A "on" 5 25 27 0 0 []); (B "identifier" 6 28 35 0 0 [] # "object"); (A "(" 7 35 36 0 0 []); (B "trigger_event" 8 36 49 0 0 [(B "before_delete" 9 36 49 0 0 [(A "before" 10 36 42 0 0 []); (A "delete" 11 43 49 0 0 [])])]); (A "," 12 49 50 0 0 []); (B "trigger_event" 13 51 64 0 0 [(B "before_insert" 14 51 64 0 0 [(A "before" 15 51 57 0 0 []); (A "insert" 16 58 64 0 0 [])])]); (A "," 17 64 65 0 0 []); (B "trigger_event" 18 66 79 0 0 [(B "before_update" 19 66 79 0 0 [(A "before" 20 66 72 0 0 []); (A "update" 21 73 79 0 0 [])])]); (A "," 22 79 80 0 0 []); (B "trigger_event" 23 83 95 1 1 [(B "after_delete" 24 83 95 1 1 [(A "after" 25 83 88 1 1 []); (A "delete" 26 89 95 1 1 [])])]); (A "," 27 95 96 1 1 []); (B "trigger_event" 28 97 109 1 1 [(B "after_insert" 29 97 109 1 1 [(A "after" 30 97 102 1 1 []); (A "insert" 31 103 109 1 1 [])])]); (A "," 32 109 110 1 1 []); (B "trigger_event" 33 111 123 1 1 [(B "after_update" 34 111 123 1 1 [(A "after" 35 111 116 1 1 []); (A "update" 36 117 123 1 1 [])])]); (A "," 37 123 124 1 1 []); (B "trigger_event" 38 125 139 1 1 [(B "after_undelete" 39 125 139 1 1 [(A "after" 40 125 130 1 1 []); (A "undelete" 41 131 139 1 1 [])])]); (A ")" 42 139 140 1 1 []); (B "trigger_body" 43 141 915 1 32 [(B "block" 44 141 915 1 32 [(A "{" 45 141 142 1 1 []); (B "expression_statement" 46 145 176 2 2 [(B "method_invocation" 47 145 175 2 2 [(B "identifier" 48 145 151 2 2 [] # "object"); (A "." 49 151 152 2 2 []); (B "identifier" 50 152 157 2 2 [] # "name"); (B "argument_list" 51 157 175 2 2 [(A "(" 52 157 158 2 2 []); (B "string_literal" 53 158 174 2 2 []); (A ")" 54 174 175 2 2 [])] # "arguments")]); (A ";" 55 175 176 2 2 [])]); (B "if_statement" 56 179 914 3 32 [(A "if" 57 179 181 3 3 []); (B "parenthesized_expression" 58 182 200 3 3 [(A "(" 59 182 183 3 3 []); (B "field_access" 60 183 199 3 3 [(B "identifier" 61 183 190 3 3 [] # "object"); (A "." 62 190 191 3 3 []); (B "identifier" 63 191 199 3 3 [] # "field")]); (A ")" 64 199 200 3 3 [])] # "condition"); (B "block" 65 201 914 3 32 [(A "{" 66 201 202 3 3 []); (B "if_statement" 67 207 913 4 32 [(A "if" 68 207 209 4 4 []); (B "parenthesized_expression" 69 210 228 4 4 [(A "(" 70 210 211 4 4 []); (B "field_access" 71 211 227 4 4 [(B "identifier" 72 211 218 4 4 [] # "object"); (A "." 73 218 219 4 4 []); (B "identifier" 74 219 227 4 4 [] # "field")]); (A ")" 75 227 228 4 4 [])] # "condition"); (B "block" 76 229 387 4 11 [(A "{" 77 229 230 4 4 []); (B "enhanced_for_statement" 78 238 381 6 10 [(A "for" 79 238 241 6 6 []); (A "(" 80 242 243 6 6 []); (B "type_identifier" 81 243 250 6 6 [] # "type"); (B "identifier" 82 251 252 6 6 [] # "name"); (A ":" 83 253 254 6 6 []); (B "field_access" 84 255 266 6 6 [(B "identifier" 85 255 262 6 6 [] # "object"); (A "." 86 262 263 6 6 []); (B "identifier" 87 263 266 6 6 [] # "field")] # "value"); (A ")" 88 266 267 6 6 []); (B "block" 89 268 381 6 10 [(A "{" 90 268 269 6 6 []); (B "if_statement" 91 278 373 7 9 [(A "if" 92 278 280 7 7 []); (B "parenthesized_expression" 93 281 305 7 7 [(A "(" 94 281 282 7 7 []); (B "binary_expression" 95 282 304 7 7 [(B "field_access" 96 282 288 7 7 [(B "identifier" 97 282 283 7 7 [] # "object"); (A "." 98 283 284 7 7 []); (B "identifier" 99 284 288 7 7 [] # "field")] # "left"); (A "!=" 100 289 291 7 7 [] # "operator"); (B "string_literal" 101 292 304 7 7 [] # "right")]); (A ")" 102 304 305 7 7 [])] # "condition"); (B "block" 103 306 373 7 9 [(A "{" 104 306 307 7 7 []); (B "expression_statement" 105 318 363 8 8 [(B "method_invocation" 106 318 362 8 8 [(B "identifier" 107 318 319 8 8 [] # "object"); (A "." 108 319 320 8 8 []); (B "identifier" 109 320 328 8 8 [] # "name"); (B "argument_list" 110 328 362 8 8 [(A "(" 111 328 329 8 8 []); (B "string_literal" 112 329 361 8 8 []); (A ")" 113 361 362 8 8 [])] # "arguments")]); (A ";" 114 362 363 8 8 [])]); (A "}" 115 372 373 9 9 [])] # "consequence")]); (A "}" 116 380 381 10 10 [])] # "body")]); (A "}" 117 386 387 11 11 [])] # "consequence"); (A "else" 118 388 392 11 11 []); (B "block" 119 393 913 11 32 [(A "{" 120 393 394 11 11 []); (B "enhanced_for_statement" 121 402 521 13 17 [(A "for" 122 402 405 13 13 []); (A "(" 123 406 407 13 13 []); (B "type_identifier" 124 407 414 13 13 [] # "type"); (B "identifier" 125 415 416 13 13 [] # "name"); (A ":" 126 417 418 13 13 []); (B "field_access" 127 419 430 13 13 [(B "identifier" 128 419 426 13 13 [] # "object"); (A "." 129 426 427 13 13 []); (B "identifier" 130 427 430 13 13 [] # "field")] # "value"); (A ")" 131 430 431 13 13 []); (B "block" 132 432 521 13 17 [(A "{" 133 432 433 13 13 []); (B "if_statement" 134 442 513 14 16 [(A "if" 135 442 444 14 14 []); (B "parenthesized_expression" 136 445 462 14 14 [(A "(" 137 445 446 14 14 []); (B "binary_expression" 138 446 461 14 14 [(B "field_access" 139 446 452 14 14 [(B "identifier" 140 446 447 14 14 [] # "object"); (A "." 141 447 448 14 14 []); (B "identifier" 142 448 452 14 14 [] # "field")] # "left"); (A "==" 143 453 455 14 14 [] # "operator"); (B "string_literal" 144 456 461 14 14 [] # "right")]); (A ")" 145 461 462 14 14 [])] # "condition"); (B "block" 146 463 513 14 16 [(A "{" 147 463 464 14 14 []); (B "expression_statement" 148 475 503 15 15 [(B "method_invocation" 149 475 502 15 15 [(B "field_access" 150 475 481 15 15 [(B "identifier" 151 475 476 15 15 [] # "object"); (A "." 152 476 477 15 15 []); (B "identifier" 153 477 481 15 15 [] # "field")] # "object"); (A "." 154 481 482 15 15 []); (B "identifier" 155 482 490 15 15 [] # "name"); (B "argument_list" 156 490 502 15 15 [(A "(" 157 490 491 15 15 []); (B "string_literal" 158 491 501 15 15 []); (A ")" 159 501 502 15 15 [])] # "arguments")]); (A ";" 160 502 503 15 15 [])]); (A "}" 161 512 513 16 16 [])] # "consequence")]); (A "}" 162 520 521 17 17 [])] # "body")]); (B "if_statement" 163 528 907 18 31 [(A "if" 164 528 530 18 18 []); (B "parenthesized_expression" 165 531 549 18 18 [(A "(" 166 531 532 18 18 []); (B "field_access" 167 532 548 18 18 [(B "identifier" 168 532 539 18 18 [] # "object"); (A "." 169 539 540 18 18 []); (B "identifier" 170 540 548 18 18 [] # "field")]); (A ")" 171 548 549 18 18 [])] # "condition"); (B "block" 172 550 640 18 22 [(A "{" 173 550 551 18 18 []); (B "enhanced_for_statement" 174 560 632 19 21 [(A "for" 175 560 563 19 19 []); (A "(" 176 564 565 19 19 []); (B "type_identifier" 177 565 572 19 19 [] # "type"); (B "identifier" 178 573 574 19 19 [] # "name"); (A ":" 179 575 576 19 19 []); (B "field_access" 180 577 588 19 19 [(B "identifier" 181 577 584 19 19 [] # "object"); (A "." 182 584 585 19 19 []); (B "identifier" 183 585 588 19 19 [] # "field")] # "value"); (A ")" 184 588 589 19 19 []); (B "block" 185 590 632 19 21 [(A "{" 186 590 591 19 19 []); (B "expression_statement" 187 602 622 20 20 [(B "method_invocation" 188 602 621 20 20 [(B "identifier" 189 602 608 20 20 [] # "object"); (A "." 190 608 609 20 20 []); (B "identifier" 191 609 614 20 20 [] # "name"); (B "argument_list" 192 614 621 20 20 [(A "(" 193 614 615 20 20 []); (B "string_literal" 194 615 620 20 20 []); (A ")" 195 620 621 20 20 [])] # "arguments")]); (A ";" 196 621 622 20 20 [])]); (A "}" 197 631 632 21 21 [])] # "body")]); (A "}" 198 639 640 22 22 [])] # "consequence"); (A "else" 199 641 645 22 22 []); (B "block" 200 646 907 22 31 [(A "{" 201 646 647 22 22 []); (B "if_statement" 202 656 899 23 30 [(A "if" 203 656 658 23 23 []); (B "parenthesized_expression" 204 659 677 23 23 [(A "(" 205 659 660 23 23 []); (B "field_access" 206 660 676 23 23 [(B "identifier" 207 660 667 23 23 [] # "object"); (A "." 208 667 668 23 23 []); (B "identifier" 209 668 676 23 23 [] # "field")]); (A ")" 210 676 677 23 23 [])] # "condition"); (B "block" 211 678 899 23 30 [(A "{" 212 678 679 23 23 []); (B "local_variable_declaration" 213 690 735 24 24 [(B "generic_type" 214 690 703 24 24 [(B "type_identifier" 215 690 694 24 24 []); (B "type_arguments" 216 694 703 24 24 [(A "<" 217 694 695 24 24 []); (B "type_identifier" 218 695 702 24 24 []); (A ">" 219 702 703 24 24 [])])] # "type"); (B "variable_declarator" 220 704 734 24 24 [(B "identifier" 221 704 712 24 24 [] # "name"); (B "assignment_operator" 222 713 714 24 24 [(A "=" 223 713 714 24 24 [])]); (B "object_creation_expression" 224 715 734 24 24 [(A "new" 225 715 718 24 24 []); (B "generic_type" 226 719 732 24 24 [(B "type_identifier" 227 719 723 24 24 []); (B "type_arguments" 228 723 732 24 24 [(A "<" 229 723 724 24 24 []); (B "type_identifier" 230 724 731 24 24 []); (A ">" 231 731 732 24 24 [])])] # "type"); (B "argument_list" 232 732 734 24 24 [(A "(" 233 732 733 24 24 []); (A ")" 234 733 734 24 24 [])] # "arguments")] # "value")] # "declarator"); (A ";" 235 734 735 24 24 [])]); (B "enhanced_for_statement" 236 746 889 25 29 [(A "for" 237 746 749 25 25 []); (A "(" 238 750 751 25 25 []); (B "type_identifier" 239 751 758 25 25 [] # "type"); (B "identifier" 240 759 760 25 25 [] # "name"); (A ":" 241 761 762 25 25 []); (B "field_access" 242 763 774 25 25 [(B "identifier" 243 763 770 25 25 [] # "object"); (A "." 244 770 771 25 25 []); (B "identifier" 245 771 774 25 25 [] # "field")] # "value"); (A ")" 246 774 775 25 25 []); (B "block" 247 776 889 25 29 [(A "{" 248 776 777 25 25 []); (B "if_statement" 249 790 877 26 28 [(A "if" 250 790 792 26 26 []); (B "parenthesized_expression" 251 792 817 26 26 [(A "(" 252 792 793 26 26 []); (B "binary_expression" 253 793 816 26 26 [(B "field_access" 254 793 799 26 26 [(B "identifier" 255 793 794 26 26 [] # "object"); (A "." 256 794 795 26 26 []); (B "identifier" 257 795 799 26 26 [] # "field")] # "left"); (A "==" 258 800 802 26 26 [] # "operator"); (B "string_literal" 259 803 816 26 26 [] # "right")]); (A ")" 260 816 817 26 26 [])] # "condition"); (B "block" 261 818 877 26 28 [(A "{" 262 818 819 26 26 []); (B "expression_statement" 263 834 863 27 27 [(B "method_invocation" 264 834 862 27 27 [(B "identifier" 265 834 840 27 27 [] # "object"); (A "." 266 840 841 27 27 []); (B "identifier" 267 841 846 27 27 [] # "name"); (B "argument_list" 268 846 862 27 27 [(A "(" 269 846 847 27 27 []); (B "string_literal" 270 847 861 27 27 []); (A ")" 271 861 862 27 27 [])] # "arguments")]); (A ";" 272 862 863 27 27 [])]); (A "}" 273 876 877 28 28 [])] # "consequence")]); (A "}" 274 888 889 29 29 [])] # "body")]); (A "}" 275 898 899 30 30 [])] # "consequence")]); (A "}" 276 906 907 31 31 [])] # "alternative")]); (A "}" 277 912 913 32 32 [])] # "alternative")]); (A "}" 278 913 914 32 32 [])] # "consequence")]); (A "}" 279 914 915 32 32 [])])] # "body")])]).
Example prettier80_Trigger : as_expected prettier80_Trigger_source prettier80_Trigger_tree (U "trigger myAccountTrigger on Account(
  before delete,
  before insert,
  before update,
  after delete,
  after insert,
  after update,
  after undelete
) {
  System.debug('Inside trigger');
  if (Trigger.isBefore) {
    if (Trigger.isDelete) {
      for (Account a : Trigger.old) {
        if (a.name != 'okToDelete') {
          a.addError('You can\'t delete this record!');
        }
      }
    } else {
      for (Account a : Trigger.new) {
        if (a.name == 'bad') {
          a.name.addError('Bad name');
        }
      }
      if (Trigger.isInsert) {
        for (Account a : Trigger.new) {
          System.debug('New');
        }
      } else {
        if (Trigger.isInsert) {
          List<Contact> contacts = new List<Contact>();
          for (Account a : Trigger.new) {
            if (a.Name == 'makeContact') {
              System.debug('Make Contact');
            }
          }
        }
      }
    }
  }
}
").
Proof. apply run_test_ok. vm_compute. reflexivity. Qed.

(* tests/prettier80/Unicode.in *)
Definition prettier80_Unicode_source : ustr := U "public class Unicode {
  public void unicodeCharacterTest(){
    String a = '" ++ [8211%N] ++ [8211%N] ++ [8211%N] ++ [8211%N] ++ U "';
    Account[] accounts = [SELECT Id FROM Account WHERE Name = 'Test " ++ [8211%N] ++ U " Name'];

    /*
    system.debug('Hi');
    */
  }

  // " ++ [21517%N] ++ [21069%N] ++ U "
  private String name;

  // " ++ [12475%N] ++ [12483%N] ++ [12479%N] ++ [12540%N] ++ U "
  public void setName(String name) {
    this.name = this.name;
    String mixedCodePoints = '\u0000 \u001f \u007f \uffff " ++ [21069%N] ++ U "';
    String mixedEscapedCodePoints = '\\u0000 \\u001f \\u007f \\uffff " ++ [21069%N] ++ U "';
  }
}
".
Definition prettier80_Unicode_tree : span := (B "parser_output" 1 0 453 0 20 [(B "class_declaration" 2 0 452 0 19 [(B "modifiers" 3 0 6 0 0 [(B "modifier" 4 0 6 0 0 [(B "public" 5 0 6 0 0 [(A "public" 6 0 6 0 0 [])])])]); (A "class" 7 7 12 0 0 []); (B "identifier" 8 13 20 0 0 [] # "name"); (B "class_body" 9 21 452 0 19 [(A "{" 10 21 22 0 0 []); (B "method_declaration" 11 25 204 1 8 [(B "modifiers" 12 25 31 1 1 [(B "modifier" 13 25 31 1 1 [(B "public" 14 25 31 1 1 [(A "public" 15 25 31 1 1 [])])])]); (B "void_type" 16 32 36 1 1 [] # "type"); (B "identifier" 17 37 57 1 1 [] # "name"); (B "formal_parameters" 18 57 59 1 1 [(A "(" 19 57 58 1 1 []); (A ")" 20 58 59 1 1 [])] # "parameters"); (B "block" 21 59 204 1 8 [(A "{" 22 59 60 1 1 []); (B "local_variable_declaration" 23 65 83 2 2 [(B "type_identifier" 24 65 71 2 2 [] # "type"); (B "variable_declarator" 25 72 82 2 2 [(B "identifier" 26 72 73 2 2 [] # "name"); (B "assignment_operator" 27 74 75 2 2 [(A "=" 28 74 75 2 2 [])]); (B "string_literal" 29 76 82 2 2 [] # "value")] # "declarator"); (A ";" 30 82 83 2 2 [])]); (B "local_variable_declaration" 31 88 161 3 3 [(B "array_type" 32 88 97 3 3 [(B "type_identifier" 33 88 95 3 3 [] # "element"); (B "dimensions" 34 95 97 3 3 [(A "[" 35 95 96 3 3 []); (A "]" 36 96 97 3 3 [])] # "dimensions")] # "type"); (B "variable_declarator" 37 98 160 3 3 [(B "identifier" 38 98 106 3 3 [] # "name"); (B "assignment_operator" 39 107 108 3 3 [(A "=" 40 107 108 3 3 [])]); (B "query_expression" 41 109 160 3 3 [(A "[" 42 109 110 3 3 []); (B "soql_query_body" 43 110 159 3 3 [(B "select_clause" 44 110 119 3 3 [(A "SELECT" 45 110 116 3 3 []); (B "field_identifier" 46 117 119 3 3 [(B "identifier" 47 117 119 3 3 [])])] # "select_clause"); (B "from_clause" 48 120 132 3 3 [(A "FROM" 49 120 124 3 3 []); (B "storage_identifier" 50 125 132 3 3 [(B "identifier" 51 125 132 3 3 [])])] # "from_clause"); (B "where_clause" 52 133 159 3 3 [(A "WHERE" 53 133 138 3 3 []); (B "comparison_expression" 54 139 159 3 3 [(B "field_identifier" 55 139 143 3 3 [(B "identifier" 56 139 143 3 3 [])]); (B "value_comparison_operator" 57 144 145 3 3 [(A "=" 58 144 145 3 3 [])]); (B "string_literal" 59 146 159 3 3 [])])] # "where_clause")]); (A "]" 60 159 160 3 3 [])] # "value")] # "declarator"); (A ";" 61 160 161 3 3 [])]); (C "block_comment" 62 167 200 5 7 []); (A "}" 63 203 204 8 8 [])] # "body")]); (C "line_comment" 64 208 213 10 10 []); (B "field_declaration" 65 216 236 11 11 [(B "modifiers" 66 216 223 11 11 [(B "modifier" 67 216 223 11 11 [(B "private" 68 216 223 11 11 [(A "private" 69 216 223 11 11 [])])])]); (B "type_identifier" 70 224 230 11 11 [] # "type"); (B "variable_declarator" 71 231 235 11 11 [(B "identifier" 72 231 235 11 11 [] # "name")] # "declarator"); (A ";" 73 235 236 11 11 [])]); (C "line_comment" 74 240 247 13 13 []); (B "method_declaration" 75 250 450 14 18 [(B "modifiers" 76 250 256 14 14 [(B "modifier" 77 250 256 14 14 [(B "public" 78 250 256 14 14 [(A "public" 79 250 256 14 14 [])])])]); (B "void_type" 80 257 261 14 14 [] # "type"); (B "identifier" 81 262 269 14 14 [] # "name"); (B "formal_parameters" 82 269 282 14 14 [(A "(" 83 269 270 14 14 []); (B "formal_parameter" 84 270 281 14 14 [(B "type_identifier" 85 270 276 14 14 [] # "type"); (B "identifier" 86 277 281 14 14 [] # "name")]); (A ")" 87 281 282 14 14 [])] # "parameters"); (B "block" 88 283 450 14 18 [(A "{" 89 283 284 14 14 []); (B "expression_statement" 90 289 311 15 15 [(B "assignment_expression" 91 289 310 15 15 [(B "field_access" 92 289 298 15 15 [(B "this" 93 289 293 15 15 [] # "object"); (A "." 94 293 294 15 15 []); (B "identifier" 95 294 298 15 15 [] # "field")] # "left"); (B "assignment_operator" 96 299 300 15 15 [(A "=" 97 299 300 15 15 [])] # "operator"); (B "field_access" 98 301 310 15 15 [(B "this" 99 301 305 15 15 [] # "object"); (A "." 100 305 306 15 15 []); (B "identifier" 101 306 310 15 15 [] # "field")] # "right")]); (A ";" 102 310 311 15 15 [])]); (B "local_variable_declaration" 103 316 373 16 16 [(B "type_identifier" 104 316 322 16 16 [] # "type"); (B "variable_declarator" 105 323 372 16 16 [(B "identifier" 106 323 338 16 16 [] # "name"); (B "assignment_operator" 107 339 340 16 16 [(A "=" 108 339 340 16 16 [])]); (B "string_literal" 109 341 372 16 16 [] # "value")] # "declarator"); (A ";" 110 372 373 16 16 [])]); (B "local_variable_declaration" 111 378 446 17 17 [(B "type_identifier" 112 378 384 17 17 [] # "type"); (B "variable_declarator" 113 385 445 17 17 [(B "identifier" 114 385 407 17 17 [] # "name"); (B "assignment_operator" 115 408 409 17 17 [(A "=" 116 408 409 17 17 [])]); (B "string_literal" 117 410 445 17 17 [] # "value")] # "declarator"); (A ";" 118 445 446 17 17 [])]); (A "}" 119 449 450 18 18 [])] # "body")]); (A "}" 120 451 452 19 19 [])] # "body")])]).
Example prettier80_Unicode : as_expected prettier80_Unicode_source prettier80_Unicode_tree (U "public class Unicode {
  public void unicodeCharacterTest() {
    String a = '" ++ [8211%N] ++ [8211%N] ++ [8211%N] ++ [8211%N] ++ U "';
    Account[] accounts = [SELECT Id FROM Account WHERE Name = 'Test " ++ [8211%N] ++ U " Name'];

    /*
    system.debug('Hi');
    */
  }

  // " ++ [21517%N] ++ [21069%N] ++ U "
  private String name;

  // " ++ [12475%N] ++ [12483%N] ++ [12479%N] ++ [12540%N] ++ U "
  public void setName(String name) {
    this.name = this.name;
    String mixedCodePoints = '\u0000 \u001f \u007f \uffff " ++ [21069%N] ++ U "';
    String mixedEscapedCodePoints = '\\u0000 \\u001f \\u007f \\uffff " ++ [21069%N] ++ U "';
  }
}
").
Proof. apply run_test_ok. vm_compute. reflexivity. Qed.

(* tests/prettier80/VariableDeclaration.in *)
Definition prettier80_VariableDeclaration_source : ustr := U "public class VariableDeclaration {
  public void declareVariables() {
    String firstString, secondString;
    String a = 'aaa', b = 'bbb';
    String c = 'c';
    String d = 'd';
    String e = c, d = a;
    HttpRequest request = new HttpRequest();
    List<String> anotherArray = new String[1];
    String[] emptyStrings;
    Integer maxNums = 5;
    stringArrays = new List<String>();

    List<String> anotherArray = new List<String>(maxNums);
    List<List<String>> listOfList = new List<List<String>>();
    listOfList = new List<List<String>>(0);
    listOfList = new List<List<String>>(maxNums);
  }
}
".
Definition prettier80_VariableDeclaration_tree : span := (B "parser_output" 1 0 611 0 19 [(B "class_declaration" 2 0 610 0 18 [(B "modifiers" 3 0 6 0 0 [(B "modifier" 4 0 6 0 0 [(B "public" 5 0 6 0 0 [(A "public" 6 0 6 0 0 [])])])]); (A "class" 7 7 12 0 0 []); (B "identifier" 8 13 32 0 0 [] # "name"); (B "class_body" 9 33 610 0 18 [(A "{" 10 33 34 0 0 []); (B "method_declaration" 11 37 608 1 17 [(B "modifiers" 12 37 43 1 1 [(B "modifier" 13 37 43 1 1 [(B "public" 14 37 43 1 1 [(A "public" 15 37 43 1 1 [])])])]); (B "void_type" 16 44 48 1 1 [] # "type"); (B "identifier" 17 49 65 1 1 [] # "name"); (B "formal_parameters" 18 65 67 1 1 [(A "(" 19 65 66 1 1 []); (A ")" 20 66 67 1 1 [])] # "parameters"); (B "block" 21 68 608 1 17 [(A "{" 22 68 69 1 1 []); (B "local_variable_declaration" 23 74 107 2 2 [(B "type_identifier" 24 74 80 2 2 [] # "type"); (B "variable_declarator" 25 81 92 2 2 [(B "identifier" 26 81 92 2 2 [] # "name")] # "declarator"); (A "," 27 92 93 2 2 []); (B "variable_declarator" 28 94 106 2 2 [(B "identifier" 29 94 106 2 2 [] # "name")] # "declarator"); (A ";" 30 106 107 2 2 [])]); (B "local_variable_declaration" 31 112 140 3 3 [(B "type_identifier" 32 112 118 3 3 [] # "type"); (B "variable_declarator" 33 119 128 3 3 [(B "identifier" 34 119 120 3 3 [] # "name"); (B "assignment_operator" 35 121 122 3 3 [(A "=" 36 121 122 3 3 [])]); (B "string_literal" 37 123 128 3 3 [] # "value")] # "declarator"); (A "," 38 128 129 3 3 []); (B "variable_declarator" 39 130 139 3 3 [(B "identifier" 40 130 131 3 3 [] # "name"); (B "assignment_operator" 41 132 133 3 3 [(A "=" 42 132 133 3 3 [])]); (B "string_literal" 43 134 139 3 3 [] # "value")] # "declarator"); (A ";" 44 139 140 3 3 [])]); (B "local_variable_declaration" 45 145 160 4 4 [(B "type_identifier" 46 145 151 4 4 [] # "type"); (B "variable_declarator" 47 152 159 4 4 [(B "identifier" 48 152 153 4 4 [] # "name"); (B "assignment_operator" 49 154 155 4 4 [(A "=" 50 154 155 4 4 [])]); (B "string_literal" 51 156 159 4 4 [] # "value")] # "declarator"); (A ";" 52 159 160 4 4 [])]); (B "local_variable_declaration" 53 165 180 5 5 [(B "type_identifier" 54 165 171 5 5 [] # "type"); (B "variable_declarator" 55 172 179 5 5 [(B "identifier" 56 172 173 5 5 [] # "name"); (B "assignment_operator" 57 174 175 5 5 [(A "=" 58 174 175 5 5 [])]); (B "string_literal" 59 176 179 5 5 [] # "value")] # "declarator"); (A ";" 60 179 180 5 5 [])]); (B "local_variable_declaration" 61 185 205 6 6 [(B "type_identifier" 62 185 191 6 6 [] # "type"); (B "variable_declarator" 63 192 197 6 6 [(B "identifier" 64 192 193 6 6 [] # "name"); (B "assignment_operator" 65 194 195 6 6 [(A "=" 66 194 195 6 6 [])]); (B "identifier" 67 196 197 6 6 [] # "value")] # "declarator"); (A "," 68 197 198 6 6 []); (B "variable_declarator" 69 199 204 6 6 [(B "identifier" 70 199 200 6 6 [] # "name"); (B "assignment_operator" 71 201 202 6 6 [(A "=" 72 201 202 6 6 [])]); (B "identifier" 73 203 204 6 6 [] # "value")] # "declarator"); (A ";" 74 204 205 6 6 [])]); (B "local_variable_declaration" 75 210 250 7 7 [(B "type_identifier" 76 210 221 7 7 [] # "type"); (B "variable_declarator" 77 222 249 7 7 [(B "identifier" 78 222 229 7 7 [] # "name"); (B "assignment_operator" 79 230 231 7 7 [(A "=" 80 230 231 7 7 [])]); (B "object_creation_expression" 81 232 249 7 7 [(A "new" 82 232 235 7 7 []); (B "type_identifier" 83 236 247 7 7 [] # "type"); (B "argument_list" 84 247 249 7 7 [(A "(" 85 247 248 7 7 []); (A ")" 86 248 249 7 7 [])] # "arguments")] # "value")] # "declarator"); (A ";" 87 249 250 7 7 [])]); (B "local_variable_declaration" 88 255 297 8 8 [(B "generic_type" 89 255 267 8 8 [(B "type_identifier" 90 255 259 8 8 []); (B "type_arguments" 91 259 267 8 8 [(A "<" 92 259 260 8 8 []); (B "type_identifier" 93 260 266 8 8 []); (A ">" 94 266 267 8 8 [])])] # "type"); (B "variable_declarator" 95 268 296 8 8 [(B "identifier" 96 268 280 8 8 [] # "name"); (B "assignment_operator" 97 281 282 8 8 [(A "=" 98 281 282 8 8 [])]); (B "array_creation_expression" 99 283 296 8 8 [(A "new" 100 283 286 8 8 []); (B "type_identifier" 101 287 293 8 8 [] # "type"); (B "dimensions_expr" 102 293 296 8 8 [(A "[" 103 293 294 8 8 []); (B "int" 104 294 295 8 8 []); (A "]" 105 295 296 8 8 [])])] # "value")] # "declarator"); (A ";" 106 296 297 8 8 [])]); (B "local_variable_declaration" 107 302 324 9 9 [(B "array_type" 108 302 310 9 9 [(B "type_identifier" 109 302 308 9 9 [] # "element"); (B "dimensions" 110 308 310 9 9 [(A "[" 111 308 309 9 9 []); (A "]" 112 309 310 9 9 [])] # "dimensions")] # "type"); (B "variable_declarator" 113 311 323 9 9 [(B "identifier" 114 311 323 9 9 [] # "name")] # "declarator"); (A ";" 115 323 324 9 9 [])]); (B "local_variable_declaration" 116 329 349 10 10 [(B "type_identifier" 117 329 336 10 10 [] # "type"); (B "variable_declarator" 118 337 348 10 10 [(B "identifier" 119 337 344 10 10 [] # "name"); (B "assignment_operator" 120 345 346 10 10 [(A "=" 121 345 346 10 10 [])]); (B "int" 122 347 348 10 10 [] # "value")] # "declarator"); (A ";" 123 348 349 10 10 [])]); (B "expression_statement" 124 354 388 11 11 [(B "assignment_expression" 125 354 387 11 11 [(B "identifier" 126 354 366 11 11 [] # "left"); (B "assignment_operator" 127 367 368 11 11 [(A "=" 128 367 368 11 11 [])] # "operator"); (B "object_creation_expression" 129 369 387 11 11 [(A "new" 130 369 372 11 11 []); (B "generic_type" 131 373 385 11 11 [(B "type_identifier" 132 373 377 11 11 []); (B "type_arguments" 133 377 385 11 11 [(A "<" 134 377 378 11 11 []); (B "type_identifier" 135 378 384 11 11 []); (A ">" 136 384 385 11 11 [])])] # "type"); (B "argument_list" 137 385 387 11 11 [(A "(" 138 385 386 11 11 []); (A ")" 139 386 387 11 11 [])] # "arguments")] # "right")]); (A ";" 140 387 388 11 11 [])]); (B "local_variable_declaration" 141 394 448 13 13 [(B "generic_type" 142 394 406 13 13 [(B "type_identifier" 143 394 398 13 13 []); (B "type_arguments" 144 398 406 13 13 [(A "<" 145 398 399 13 13 []); (B "type_identifier" 146 399 405 13 13 []); (A ">" 147 405 406 13 13 [])])] # "type"); (B "variable_declarator" 148 407 447 13 13 [(B "identifier" 149 407 419 13 13 [] # "name"); (B "assignment_operator" 150 420 421 13 13 [(A "=" 151 420 421 13 13 [])]); (B "object_creation_expression" 152 422 447 13 13 [(A "new" 153 422 425 13 13 []); (B "generic_type" 154 426 438 13 13 [(B "type_identifier" 155 426 430 13 13 []); (B "type_arguments" 156 430 438 13 13 [(A "<" 157 430 431 13 13 []); (B "type_identifier" 158 431 437 13 13 []); (A ">" 159 437 438 13 13 [])])] # "type"); (B "argument_list" 160 438 447 13 13 [(A "(" 161 438 439 13 13 []); (B "identifier" 162 439 446 13 13 []); (A ")" 163 446 447 13 13 [])] # "arguments")] # "value")] # "declarator"); (A ";" 164 447 448 13 13 [])]); (B "local_variable_declaration" 165 453 510 14 14 [(B "generic_type" 166 453 471 14 14 [(B "type_identifier" 167 453 457 14 14 []); (B "type_arguments" 168 457 471 14 14 [(A "<" 169 457 458 14 14 []); (B "generic_type" 170 458 470 14 14 [(B "type_identifier" 171 458 462 14 14 []); (B "type_arguments" 172 462 470 14 14 [(A "<" 173 462 463 14 14 []); (B "type_identifier" 174 463 469 14 14 []); (A ">" 175 469 470 14 14 [])])]); (A ">" 176 470 471 14 14 [])])] # "type"); (B "variable_declarator" 177 472 509 14 14 [(B "identifier" 178 472 482 14 14 [] # "name"); (B "assignment_operator" 179 483 484 14 14 [(A "=" 180 483 484 14 14 [])]); (B "object_creation_expression" 181 485 509 14 14 [(A "new" 182 485 488 14 14 []); (B "generic_type" 183 489 507 14 14 [(B "type_identifier" 184 489 493 14 14 []); (B "type_arguments" 185 493 507 14 14 [(A "<" 186 493 494 14 14 []); (B "generic_type" 187 494 506 14 14 [(B "type_identifier" 188 494 498 14 14 []); (B "type_arguments" 189 498 506 14 14 [(A "<" 190 498 499 14 14 []); (B "type_identifier" 191 499 505 14 14 []); (A ">" 192 505 506 14 14 [])])]); (A ">" 193 506 507 14 14 [])])] # "type"); (B "argument_list" 194 507 509 14 14 [(A "(" 195 507 508 14 14 []); (A ")" 196 508 509 14 14 [])] # "arguments")] # "value")] # "declarator"); (A ";" 197 509 510 14 14 [])]); (B "expression_statement" 198 515 554 15 15 [(B "assignment_expression" 199 515 553 15 15 [(B "identifier" 200 515 525 15 15 [] # "left"); (B "assignment_operator" 201 526 527 15 15 [(A "=" 202 526 527 15 15 [])] # "operator"); (B "object_creation_expression" 203 528 553 15 15 [(A "new" 204 528 531 15 15 []); (B "generic_type" 205 532 550 15 15 [(B "type_identifier" 206 532 536 15 15 []); (B "type_arguments" 207 536 550 15 15 [(A "<" 208 536 537 15 15 []); (B "generic_type" 209 537 549 15 15 [(B "type_identifier" 210 537 541 15 15 []); (B "type_arguments" 211 541 549 15 15 [(A "<" 212 541 542 15 15 []); (B "type_identifier" 213 542 548 15 15 []); (A ">" 214 548 549 15 15 [])])]); (A ">" 215 549 550 15 15 [])])] # "type"); (B "argument_list" 216 550 553 15 15 [(A "(" 217 550 551 15 15 []); (B "int" 218 551 552 15 15 []); (A ")" 219 552 553 15 15 [])] # "arguments")] # "right")]); (A ";" 220 553 554 15 15 [])]); (B "expression_statement" 221 559 604 16 16 [(B "assignment_expression" 222 559 603 16 16 [(B "identifier" 223 559 569 16 16 [] # "left"); (B "assignment_operator" 224 570 571 16 16 [(A "=" 225 570 571 16 16 [])] # "operator"); (B "object_creation_expression" 226 572 603 16 16 [(A "new" 227 572 575 16 16 []); (B "generic_type" 228 576 594 16 16 [(B "type_identifier" 229 576 580 16 16 []); (B "type_arguments" 230 580 594 16 16 [(A "<" 231 580 581 16 16 []); (B "generic_type" 232 581 593 16 16 [(B "type_identifier" 233 581 585 16 16 []); (B "type_arguments" 234 585 593 16 16 [(A "<" 235 585 586 16 16 []); (B "type_identifier" 236 586 592 16 16 []); (A ">" 237 592 593 16 16 [])])]); (A ">" 238 593 594 16 16 [])])] # "type"); (B "argument_list" 239 594 603 16 16 [(A "(" 240 594 595 16 16 []); (B "identifier" 241 595 602 16 16 []); (A ")" 242 602 603 16 16 [])] # "arguments")] # "right")]); (A ";" 243 603 604 16 16 [])]); (A "}" 244 607 608 17 17 [])] # "body")]); (A "}" 245 609 610 18 18 [])] # "body")])]).
Example prettier80_VariableDeclaration : as_expected prettier80_VariableDeclaration_source prettier80_VariableDeclaration_tree (U "public class VariableDeclaration {
  public void declareVariables() {
    String firstString, secondString;
    String a = 'aaa', b = 'bbb';
    String c = 'c';
    String d = 'd';
    String e = c, d = a;
    HttpRequest request = new HttpRequest();
    List<String> anotherArray = new String[1];
    String[] emptyStrings;
    Integer maxNums = 5;
    stringArrays = new List<String>();

    List<String> anotherArray = new List<String>(maxNums);
    List<List<String>> listOfList = new List<List<String>>();
    listOfList = new List<List<String>>(0);
    listOfList = new List<List<String>>(maxNums);
  }
}
").
Proof. apply run_test_ok. vm_compute. reflexivity. Qed.

(* tests/prettier80/WithFinalNewLine.in *)
Definition prettier80_WithFinalNewLine_source : ustr := U "class WithFinalNewLine {}
".
Definition prettier80_WithFinalNewLine_tree : span := (B "parser_output" 1 0 26 0 1 [(B "class_declaration" 2 0 25 0 0 [(A "class" 3 0 5 0 0 []); (B "identifier" 4 6 22 0 0 [] # "name"); (B "class_body" 5 23 25 0 0 [(A "{" 6 23 24 0 0 []); (A "}" 7 24 25 0 0 [])] # "body")])]).
Example prettier80_WithFinalNewLine : as_expected prettier80_WithFinalNewLine_source prettier80_WithFinalNewLine_tree (U "class WithFinalNewLine {
}
").
Proof. apply run_test_ok. vm_compute. reflexivity. Qed.

(* tests/prettier80/WithoutFinalNewLine.in *)
Definition prettier80_WithoutFinalNewLine_source : ustr := U "class WithoutFinalNewLine {}
".
Definition prettier80_WithoutFinalNewLine_tree : span := (B "parser_output" 1 0 29 0 1 [(B "class_declaration" 2 0 28 0 0 [(A "class" 3 0 5 0 0 []); (B "identifier" 4 6 25 0 0 [] # "name"); (B "class_body" 5 26 28 0 0 [(A "{" 6 26 27 0 0 []); (A "}" 7 27 28 0 0 [])] # "body")])]).
Example prettier80_WithoutFinalNewLine : as_expected prettier80_WithoutFinalNewLine_source prettier80_WithoutFinalNewLine_tree (U "class WithoutFinalNewLine {
}
").
Proof. apply run_test_ok. vm_compute. reflexivity. Qed.

(* tests/prettier80/a1.in *)
Definition prettier80_a1_source : ustr := U "  @Annotation
    public    class   Me 
    {

}
".
Definition prettier80_a1_tree : span := (B "parser_output" 1 2 49 0 5 [(B "class_declaration" 2 2 48 0 4 [(B "modifiers" 3 2 24 0 1 [(B "annotation" 4 2 13 0 0 [(A "@" 5 2 3 0 0 []); (B "identifier" 6 3 13 0 0 [] # "name")]); (B "modifier" 7 18 24 1 1 [(B "public" 8 18 24 1 1 [(A "public" 9 18 24 1 1 [])])])]); (A "class" 10 28 33 1 1 []); (B "identifier" 11 36 38 1 1 [] # "name"); (B "class_body" 12 44 48 2 4 [(A "{" 13 44 45 2 2 []); (A "}" 14 47 48 4 4 [])] # "body")])]).
Example prettier80_a1 : as_expected prettier80_a1_source prettier80_a1_tree (U "@Annotation
public class Me {
}
").
Proof. apply run_test_ok. vm_compute. reflexivity. Qed.

(* tests/prettier80/a2.in *)
Definition prettier80_a2_source : ustr := U " @ Annotation  (   param1
   = 
false   )

  public class Me {
}
".
Definition prettier80_a2_tree : span := (B "parser_output" 1 1 65 0 6 [(B "class_declaration" 2 1 64 0 5 [(B "modifiers" 3 1 51 0 4 [(B "annotation" 4 1 41 0 2 [(A "@" 5 1 2 0 0 []); (B "identifier" 6 3 13 0 0 [] # "name"); (B "annotation_argument_list" 7 15 41 0 2 [(A "(" 8 15 16 0 0 []); (B "annotation_key_value" 9 19 37 0 2 [(B "identifier" 10 19 25 0 0 [] # "key"); (A "=" 11 29 30 1 1 []); (B "boolean" 12 32 37 2 2 [(A "false" 13 32 37 2 2 [])] # "value")]); (A ")" 14 40 41 2 2 [])] # "arguments")]); (B "modifier" 15 45 51 4 4 [(B "public" 16 45 51 4 4 [(A "public" 17 45 51 4 4 [])])])]); (A "class" 18 52 57 4 4 []); (B "identifier" 19 58 60 4 4 [] # "name"); (B "class_body" 20 61 64 4 5 [(A "{" 21 61 62 4 4 []); (A "}" 22 63 64 5 5 [])] # "body")])]).
Example prettier80_a2 : as_expected prettier80_a2_source prettier80_a2_tree (U "@Annotation(param1=false)
public class Me {
}
").
Proof. apply run_test_ok. vm_compute. reflexivity. Qed.

(* tests/prettier80/a3.in *)
Definition prettier80_a3_source : ustr := U "  @
  Annotation   (  param1
    =                'world'
)


public class Me {
}
".
Definition prettier80_a3_tree : span := (B "parser_output" 1 2 82 0 8 [(B "class_declaration" 2 2 81 0 7 [(B "modifiers" 3 2 68 0 6 [(B "annotation" 4 2 59 0 3 [(A "@" 5 2 3 0 0 []); (B "identifier" 6 6 16 1 1 [] # "name"); (B "annotation_argument_list" 7 19 59 1 3 [(A "(" 8 19 20 1 1 []); (B "annotation_key_value" 9 22 57 1 2 [(B "identifier" 10 22 28 1 1 [] # "key"); (A "=" 11 33 34 2 2 []); (B "string_literal" 12 50 57 2 2 [] # "value")]); (A ")" 13 58 59 3 3 [])] # "arguments")]); (B "modifier" 14 62 68 6 6 [(B "public" 15 62 68 6 6 [(A "public" 16 62 68 6 6 [])])])]); (A "class" 17 69 74 6 6 []); (B "identifier" 18 75 77 6 6 [] # "name"); (B "class_body" 19 78 81 6 7 [(A "{" 20 78 79 6 6 []); (A "}" 21 80 81 7 7 [])] # "body")])]).
Example prettier80_a3 : as_expected prettier80_a3_source prettier80_a3_tree (U "@Annotation(param1='world')
public class Me {
}
").
Proof. apply run_test_ok. vm_compute. reflexivity. Qed.

(* tests/prettier80/a4.in *)
Definition prettier80_a4_source : ustr := U "  @Annotation 
    (  param1 =   false   param2  =
    'hello'

)

public class Me {
}
".
Definition prettier80_a4_tree : span := (B "parser_output" 1 2 87 0 8 [(B "class_declaration" 2 2 86 0 7 [(B "modifiers" 3 2 73 0 6 [(B "annotation" 4 2 65 0 4 [(A "@" 5 2 3 0 0 []); (B "identifier" 6 3 13 0 0 [] # "name"); (B "annotation_argument_list" 7 19 65 1 4 [(A "(" 8 19 20 1 1 []); (B "annotation_key_value" 9 22 38 1 1 [(B "identifier" 10 22 28 1 1 [] # "key"); (A "=" 11 29 30 1 1 []); (B "boolean" 12 33 38 1 1 [(A "false" 13 33 38 1 1 [])] # "value")]); (B "annotation_key_value" 14 41 62 1 2 [(B "identifier" 15 41 47 1 1 [] # "key"); (A "=" 16 49 50 1 1 []); (B "string_literal" 17 55 62 2 2 [] # "value")]); (A ")" 18 64 65 4 4 [])] # "arguments")]); (B "modifier" 19 67 73 6 6 [(B "public" 20 67 73 6 6 [(A "public" 21 67 73 6 6 [])])])]); (A "class" 22 74 79 6 6 []); (B "identifier" 23 80 82 6 6 [] # "name"); (B "class_body" 24 83 86 6 7 [(A "{" 25 83 84 6 6 []); (A "}" 26 85 86 7 7 [])] # "body")])]).
Example prettier80_a4 : as_expected prettier80_a4_source prettier80_a4_tree (U "@Annotation(param1=false param2='hello')
public class Me {
}
").
Proof. apply run_test_ok. vm_compute. reflexivity. Qed.

(* tests/prettier80/a5.in *)
Definition prettier80_a5_source : ustr := U "  @Annotation  (  'this is a test of \' strings'  )

public class Me {
}
".
Definition prettier80_a5_tree : span := (B "parser_output" 1 2 73 0 4 [(B "class_declaration" 2 2 72 0 3 [(B "modifiers" 3 2 59 0 2 [(B "annotation" 4 2 51 0 0 [(A "@" 5 2 3 0 0 []); (B "identifier" 6 3 13 0 0 [] # "name"); (B "annotation_argument_list" 7 15 51 0 0 [(A "(" 8 15 16 0 0 []); (B "string_literal" 9 18 48 0 0 [] # "value"); (A ")" 10 50 51 0 0 [])] # "arguments")]); (B "modifier" 11 53 59 2 2 [(B "public" 12 53 59 2 2 [(A "public" 13 53 59 2 2 [])])])]); (A "class" 14 60 65 2 2 []); (B "identifier" 15 66 68 2 2 [] # "name"); (B "class_body" 16 69 72 2 3 [(A "{" 17 69 70 2 2 []); (A "}" 18 71 72 3 3 [])] # "body")])]).
Example prettier80_a5 : as_expected prettier80_a5_source prettier80_a5_tree (U "@Annotation('this is a test of \' strings')
public class Me {
}
").
Proof. apply run_test_ok. vm_compute. reflexivity. Qed.

(* tests/prettier80/a6.in *)
Definition prettier80_a6_source : ustr := U "public without sharing class Me {
  {
       @InvocableVariable  (required=   true   
             label =   'Old User'  )


    public Id oldUserId;
  }
}
".
Definition prettier80_a6_tree : span := (B "parser_output" 1 0 156 0 9 [(B "class_declaration" 2 0 155 0 8 [(B "modifiers" 3 0 22 0 0 [(B "modifier" 4 0 6 0 0 [(B "public" 5 0 6 0 0 [(A "public" 6 0 6 0 0 [])])]); (B "modifier" 7 7 22 0 0 [(B "without_sharing" 8 7 22 0 0 [(A "without" 9 7 14 0 0 []); (A "sharing" 10 15 22 0 0 [])])])]); (A "class" 11 23 28 0 0 []); (B "identifier" 12 29 31 0 0 [] # "name"); (B "class_body" 13 32 155 0 8 [(A "{" 14 32 33 0 0 []); (B "block" 15 36 153 1 7 [(A "{" 16 36 37 1 1 []); (B "local_variable_declaration" 17 45 149 2 6 [(B "modifiers" 18 45 135 2 6 [(B "annotation" 19 45 122 2 3 [(A "@" 20 45 46 2 2 []); (B "identifier" 21 46 63 2 2 [] # "name"); (B "annotation_argument_list" 22 65 122 2 3 [(A "(" 23 65 66 2 2 []); (B "annotation_key_value" 24 66 82 2 2 [(B "identifier" 25 66 74 2 2 [] # "key"); (A "=" 26 74 75 2 2 []); (B "boolean" 27 78 82 2 2 [(A "true" 28 78 82 2 2 [])] # "value")]); (B "annotation_key_value" 29 99 119 3 3 [(B "identifier" 30 99 104 3 3 [] # "key"); (A "=" 31 105 106 3 3 []); (B "string_literal" 32 109 119 3 3 [] # "value")]); (A ")" 33 121 122 3 3 [])] # "arguments")]); (B "modifier" 34 129 135 6 6 [(B "public" 35 129 135 6 6 [(A "public" 36 129 135 6 6 [])])])]); (B "type_identifier" 37 136 138 6 6 [] # "type"); (B "variable_declarator" 38 139 148 6 6 [(B "identifier" 39 139 148 6 6 [] # "name")] # "declarator"); (A ";" 40 148 149 6 6 [])]); (A "}" 41 152 153 7 7 [])]); (A "}" 42 154 155 8 8 [])] # "body")])]).
Example prettier80_a6 : as_expected prettier80_a6_source prettier80_a6_tree (U "public without sharing class Me {
  {
    @InvocableVariable(required=true label='Old User')
    public Id oldUserId;
  }
}
").
Proof. apply run_test_ok. vm_compute. reflexivity. Qed.

(* tests/prettier80/access_declaration.in *)
Definition prettier80_access_declaration_source : ustr := U "public class Me {
  public integer prop {
    get {
      return prop;
    }
    set {
      prop = value;
    }
  }
}
".
Definition prettier80_access_declaration_tree : span := (B "parser_output" 1 0 119 0 10 [(B "class_declaration" 2 0 118 0 9 [(B "modifiers" 3 0 6 0 0 [(B "modifier" 4 0 6 0 0 [(B "public" 5 0 6 0 0 [(A "public" 6 0 6 0 0 [])])])]); (A "class" 7 7 12 0 0 []); (B "identifier" 8 13 15 0 0 [] # "name"); (B "class_body" 9 16 118 0 9 [(A "{" 10 16 17 0 0 []); (B "field_declaration" 11 20 116 1 8 [(B "modifiers" 12 20 26 1 1 [(B "modifier" 13 20 26 1 1 [(B "public" 14 20 26 1 1 [(A "public" 15 20 26 1 1 [])])])]); (B "type_identifier" 16 27 34 1 1 [] # "type"); (B "variable_declarator" 17 35 39 1 1 [(B "identifier" 18 35 39 1 1 [] # "name")] # "declarator"); (B "accessor_list" 19 40 116 1 8 [(A "{" 20 40 41 1 1 []); (B "accessor_declaration" 21 46 76 2 4 [(A "get" 22 46 49 2 2 [] # "accessor"); (B "block" 23 50 76 2 4 [(A "{" 24 50 51 2 2 []); (B "return_statement" 25 58 70 3 3 [(A "return" 26 58 64 3 3 []); (B "identifier" 27 65 69 3 3 []); (A ";" 28 69 70 3 3 [])]); (A "}" 29 75 76 4 4 [])] # "body")]); (B "accessor_declaration" 30 81 112 5 7 [(A "set" 31 81 84 5 5 [] # "accessor"); (B "block" 32 85 112 5 7 [(A "{" 33 85 86 5 5 []); (B "expression_statement" 34 93 106 6 6 [(B "assignment_expression" 35 93 105 6 6 [(B "identifier" 36 93 97 6 6 [] # "left"); (B "assignment_operator" 37 98 99 6 6 [(A "=" 38 98 99 6 6 [])] # "operator"); (B "identifier" 39 100 105 6 6 [] # "right")]); (A ";" 40 105 106 6 6 [])]); (A "}" 41 111 112 7 7 [])] # "body")]); (A "}" 42 115 116 8 8 [])])]); (A "}" 43 117 118 9 9 [])] # "body")])]).
Example prettier80_access_declaration : as_expected prettier80_access_declaration_source prettier80_access_declaration_tree (U "public class Me {
  public integer prop {
    get {
      return prop;
    }
    set {
      prop = value;
    }
  }
}
").
Proof. apply run_test_ok. vm_compute. reflexivity. Qed.

(* tests/prettier80/anno2.in *)
Definition prettier80_anno2_source : ustr := U "class topLevelClass {

    @InvocableMethod
          public static List<Results> execute(List<Requests> requestList) {
}

}
".
Definition prettier80_anno2_tree : span := (B "parser_output" 1 0 125 0 7 [(B "class_declaration" 2 0 124 0 6 [(A "class" 3 0 5 0 0 []); (B "identifier" 4 6 19 0 0 [] # "name"); (B "class_body" 5 20 124 0 6 [(A "{" 6 20 21 0 0 []); (B "method_declaration" 7 27 121 2 4 [(B "modifiers" 8 27 67 2 3 [(B "annotation" 9 27 43 2 2 [(A "@" 10 27 28 2 2 []); (B "identifier" 11 28 43 2 2 [] # "name")]); (B "modifier" 12 54 60 3 3 [(B "public" 13 54 60 3 3 [(A "public" 14 54 60 3 3 [])])]); (B "modifier" 15 61 67 3 3 [(B "static" 16 61 67 3 3 [(A "static" 17 61 67 3 3 [])])])]); (B "generic_type" 18 68 81 3 3 [(B "type_identifier" 19 68 72 3 3 []); (B "type_arguments" 20 72 81 3 3 [(A "<" 21 72 73 3 3 []); (B "type_identifier" 22 73 80 3 3 []); (A ">" 23 80 81 3 3 [])])] # "type"); (B "identifier" 24 82 89 3 3 [] # "name"); (B "formal_parameters" 25 89 117 3 3 [(A "(" 26 89 90 3 3 []); (B "formal_parameter" 27 90 116 3 3 [(B "generic_type" 28 90 104 3 3 [(B "type_identifier" 29 90 94 3 3 []); (B "type_arguments" 30 94 104 3 3 [(A "<" 31 94 95 3 3 []); (B "type_identifier" 32 95 103 3 3 []); (A ">" 33 103 104 3 3 [])])] # "type"); (B "identifier" 34 105 116 3 3 [] # "name")]); (A ")" 35 116 117 3 3 [])] # "parameters"); (B "block" 36 118 121 3 4 [(A "{" 37 118 119 3 3 []); (A "}" 38 120 121 4 4 [])] # "body")]); (A "}" 39 123 124 6 6 [])] # "body")])]).
Example prettier80_anno2 : as_expected prettier80_anno2_source prettier80_anno2_tree (U "class topLevelClass {
  @InvocableMethod
  public static List<Results> execute(List<Requests> requestList) {
  }
}
").
Proof. apply run_test_ok. vm_compute. reflexivity. Qed.

(* tests/prettier80/anno3.in *)
Definition prettier80_anno3_source : ustr := U "@IsTest()
public class Java {
  @IsTest()
  public void testJavaVariable() {
    
  }
}
".
Definition prettier80_anno3_tree : span := (B "parser_output" 1 0 88 0 7 [(B "class_declaration" 2 0 87 0 6 [(B "modifiers" 3 0 16 0 1 [(B "annotation" 4 0 9 0 0 [(A "@" 5 0 1 0 0 []); (B "identifier" 6 1 7 0 0 [] # "name"); (B "annotation_argument_list" 7 7 9 0 0 [(A "(" 8 7 8 0 0 []); (A ")" 9 8 9 0 0 [])] # "arguments")]); (B "modifier" 10 10 16 1 1 [(B "public" 11 10 16 1 1 [(A "public" 12 10 16 1 1 [])])])]); (A "class" 13 17 22 1 1 []); (B "identifier" 14 23 27 1 1 [] # "name"); (B "class_body" 15 28 87 1 6 [(A "{" 16 28 29 1 1 []); (B "method_declaration" 17 32 85 2 5 [(B "modifiers" 18 32 50 2 3 [(B "annotation" 19 32 41 2 2 [(A "@" 20 32 33 2 2 []); (B "identifier" 21 33 39 2 2 [] # "name"); (B "annotation_argument_list" 22 39 41 2 2 [(A "(" 23 39 40 2 2 []); (A ")" 24 40 41 2 2 [])] # "arguments")]); (B "modifier" 25 44 50 3 3 [(B "public" 26 44 50 3 3 [(A "public" 27 44 50 3 3 [])])])]); (B "void_type" 28 51 55 3 3 [] # "type"); (B "identifier" 29 56 72 3 3 [] # "name"); (B "formal_parameters" 30 72 74 3 3 [(A "(" 31 72 73 3 3 []); (A ")" 32 73 74 3 3 [])] # "parameters"); (B "block" 33 75 85 3 5 [(A "{" 34 75 76 3 3 []); (A "}" 35 84 85 5 5 [])] # "body")]); (A "}" 36 86 87 6 6 [])] # "body")])]).
Example prettier80_anno3 : as_expected prettier80_anno3_source prettier80_anno3_tree (U "@IsTest
public class Java {
  @IsTest
  public void testJavaVariable() {
  }
}
").
Proof. apply run_test_ok. vm_compute. reflexivity. Qed.

(* tests/prettier80/array_vs_object_creation.in *)
Definition prettier80_array_vs_object_creation_source : ustr := U "class A {
  {
    new List<Id>{ '0010B00001kL7i0QAC' };

    String[] values = new String[0];

    stringArray = new String[0];
    stringArray = new String[0];

    Integer index = 5;
    stringArray = new List<String>(index);
    stringArray = new List<String>(index);

    List<List<String>> listOfList = new List<List<String>>();

    List<List<String>> listOfList = new List<List<String>>(0);
  }
}

".
Definition prettier80_array_vs_object_creation_tree : span := (B "parser_output" 1 0 405 0 19 [(B "class_declaration" 2 0 403 0 17 [(A "class" 3 0 5 0 0 []); (B "identifier" 4 6 7 0 0 [] # "name"); (B "class_body" 5 8 403 0 17 [(A "{" 6 8 9 0 0 []); (B "block" 7 12 401 1 16 [(A "{" 8 12 13 1 1 []); (B "expression_statement" 9 18 55 2 2 [(B "array_creation_expression" 10 18 54 2 2 [(A "new" 11 18 21 2 2 []); (B "generic_type" 12 22 30 2 2 [(B "type_identifier" 13 22 26 2 2 []); (B "type_arguments" 14 26 30 2 2 [(A "<" 15 26 27 2 2 []); (B "type_identifier" 16 27 29 2 2 []); (A ">" 17 29 30 2 2 [])])] # "type"); (B "array_initializer" 18 30 54 2 2 [(A "{" 19 30 31 2 2 []); (B "string_literal" 20 32 52 2 2 []); (A "}" 21 53 54 2 2 [])] # "value")]); (A ";" 22 54 55 2 2 [])]); (B "local_variable_declaration" 23 61 93 4 4 [(B "array_type" 24 61 69 4 4 [(B "type_identifier" 25 61 67 4 4 [] # "element"); (B "dimensions" 26 67 69 4 4 [(A "[" 27 67 68 4 4 []); (A "]" 28 68 69 4 4 [])] # "dimensions")] # "type"); (B "variable_declarator" 29 70 92 4 4 [(B "identifier" 30 70 76 4 4 [] # "name"); (B "assignment_operator" 31 77 78 4 4 [(A "=" 32 77 78 4 4 [])]); (B "array_creation_expression" 33 79 92 4 4 [(A "new" 34 79 82 4 4 []); (B "type_identifier" 35 83 89 4 4 [] # "type"); (B "dimensions_expr" 36 89 92 4 4 [(A "[" 37 89 90 4 4 []); (B "int" 38 90 91 4 4 []); (A "]" 39 91 92 4 4 [])])] # "value")] # "declarator"); (A ";" 40 92 93 4 4 [])]); (B "expression_statement" 41 99 127 6 6 [(B "assignment_expression" 42 99 126 6 6 [(B "identifier" 43 99 110 6 6 [] # "left"); (B "assignment_operator" 44 111 112 6 6 [(A "=" 45 111 112 6 6 [])] # "operator"); (B "array_creation_expression" 46 113 126 6 6 [(A "new" 47 113 116 6 6 []); (B "type_identifier" 48 117 123 6 6 [] # "type"); (B "dimensions_expr" 49 123 126 6 6 [(A "[" 50 123 124 6 6 []); (B "int" 51 124 125 6 6 []); (A "]" 52 125 126 6 6 [])])] # "right")]); (A ";" 53 126 127 6 6 [])]); (B "expression_statement" 54 132 160 7 7 [(B "assignment_expression" 55 132 159 7 7 [(B "identifier" 56 132 143 7 7 [] # "left"); (B "assignment_operator" 57 144 145 7 7 [(A "=" 58 144 145 7 7 [])] # "operator"); (B "array_creation_expression" 59 146 159 7 7 [(A "new" 60 146 149 7 7 []); (B "type_identifier" 61 150 156 7 7 [] # "type"); (B "dimensions_expr" 62 156 159 7 7 [(A "[" 63 156 157 7 7 []); (B "int" 64 157 158 7 7 []); (A "]" 65 158 159 7 7 [])])] # "right")]); (A ";" 66 159 160 7 7 [])]); (B "local_variable_declaration" 67 166 184 9 9 [(B "type_identifier" 68 166 173 9 9 [] # "type"); (B "variable_declarator" 69 174 183 9 9 [(B "identifier" 70 174 179 9 9 [] # "name"); (B "assignment_operator" 71 180 181 9 9 [(A "=" 72 180 181 9 9 [])]); (B "int" 73 182 183 9 9 [] # "value")] # "declarator"); (A ";" 74 183 184 9 9 [])]); (B "expression_statement" 75 189 227 10 10 [(B "assignment_expression" 76 189 226 10 10 [(B "identifier" 77 189 200 10 10 [] # "left"); (B "assignment_operator" 78 201 202 10 10 [(A "=" 79 201 202 10 10 [])] # "operator"); (B "object_creation_expression" 80 203 226 10 10 [(A "new" 81 203 206 10 10 []); (B "generic_type" 82 207 219 10 10 [(B "type_identifier" 83 207 211 10 10 []); (B "type_arguments" 84 211 219 10 10 [(A "<" 85 211 212 10 10 []); (B "type_identifier" 86 212 218 10 10 []); (A ">" 87 218 219 10 10 [])])] # "type"); (B "argument_list" 88 219 226 10 10 [(A "(" 89 219 220 10 10 []); (B "identifier" 90 220 225 10 10 []); (A ")" 91 225 226 10 10 [])] # "arguments")] # "right")]); (A ";" 92 226 227 10 10 [])]); (B "expression_statement" 93 232 270 11 11 [(B "assignment_expression" 94 232 269 11 11 [(B "identifier" 95 232 243 11 11 [] # "left"); (B "assignment_operator" 96 244 245 11 11 [(A "=" 97 244 245 11 11 [])] # "operator"); (B "object_creation_expression" 98 246 269 11 11 [(A "new" 99 246 249 11 11 []); (B "generic_type" 100 250 262 11 11 [(B "type_identifier" 101 250 254 11 11 []); (B "type_arguments" 102 254 262 11 11 [(A "<" 103 254 255 11 11 []); (B "type_identifier" 104 255 261 11 11 []); (A ">" 105 261 262 11 11 [])])] # "type"); (B "argument_list" 106 262 269 11 11 [(A "(" 107 262 263 11 11 []); (B "identifier" 108 263 268 11 11 []); (A ")" 109 268 269 11 11 [])] # "arguments")] # "right")]); (A ";" 110 269 270 11 11 [])]); (B "local_variable_declaration" 111 276 333 13 13 [(B "generic_type" 112 276 294 13 13 [(B "type_identifier" 113 276 280 13 13 []); (B "type_arguments" 114 280 294 13 13 [(A "<" 115 280 281 13 13 []); (B "generic_type" 116 281 293 13 13 [(B "type_identifier" 117 281 285 13 13 []); (B "type_arguments" 118 285 293 13 13 [(A "<" 119 285 286 13 13 []); (B "type_identifier" 120 286 292 13 13 []); (A ">" 121 292 293 13 13 [])])]); (A ">" 122 293 294 13 13 [])])] # "type"); (B "variable_declarator" 123 295 332 13 13 [(B "identifier" 124 295 305 13 13 [] # "name"); (B "assignment_operator" 125 306 307 13 13 [(A "=" 126 306 307 13 13 [])]); (B "object_creation_expression" 127 308 332 13 13 [(A "new" 128 308 311 13 13 []); (B "generic_type" 129 312 330 13 13 [(B "type_identifier" 130 312 316 13 13 []); (B "type_arguments" 131 316 330 13 13 [(A "<" 132 316 317 13 13 []); (B "generic_type" 133 317 329 13 13 [(B "type_identifier" 134 317 321 13 13 []); (B "type_arguments" 135 321 329 13 13 [(A "<" 136 321 322 13 13 []); (B "type_identifier" 137 322 328 13 13 []); (A ">" 138 328 329 13 13 [])])]); (A ">" 139 329 330 13 13 [])])] # "type"); (B "argument_list" 140 330 332 13 13 [(A "(" 141 330 331 13 13 []); (A ")" 142 331 332 13 13 [])] # "arguments")] # "value")] # "declarator"); (A ";" 143 332 333 13 13 [])]); (B "local_variable_declaration" 144 339 397 15 15 [(B "generic_type" 145 339 357 15 15 [(B "type_identifier" 146 339 343 15 15 []); (B "type_arguments" 147 343 357 15 15 [(A "<" 148 343 344 15 15 []); (B "generic_type" 149 344 356 15 15 [(B "type_identifier" 150 344 348 15 15 []); (B "type_arguments" 151 348 356 15 15 [(A "<" 152 348 349 15 15 []); (B "type_identifier" 153 349 355 15 15 []); (A ">" 154 355 356 15 15 [])])]); (A ">" 155 356 357 15 15 [])])] # "type"); (B "variable_declarator" 156 358 396 15 15 [(B "identifier" 157 358 368 15 15 [] # "name"); (B "assignment_operator" 158 369 370 15 15 [(A "=" 159 369 370 15 15 [])]); (B "object_creation_expression" 160 371 396 15 15 [(A "new" 161 371 374 15 15 []); (B "generic_type" 162 375 393 15 15 [(B "type_identifier" 163 375 379 15 15 []); (B "type_arguments" 164 379 393 15 15 [(A "<" 165 379 380 15 15 []); (B "generic_type" 166 380 392 15 15 [(B "type_identifier" 167 380 384 15 15 []); (B "type_arguments" 168 384 392 15 15 [(A "<" 169 384 385 15 15 []); (B "type_identifier" 170 385 391 15 15 []); (A ">" 171 391 392 15 15 [])])]); (A ">" 172 392 393 15 15 [])])] # "type"); (B "argument_list" 173 393 396 15 15 [(A "(" 174 393 394 15 15 []); (B "int" 175 394 395 15 15 []); (A ")" 176 395 396 15 15 [])] # "arguments")] # "value")] # "declarator"); (A ";" 177 396 397 15 15 [])]); (A "}" 178 400 401 16 16 [])]); (A "}" 179 402 403 17 17 [])] # "body")])]).
Example prettier80_array_vs_object_creation : as_expected prettier80_array_vs_object_creation_source prettier80_array_vs_object_creation_tree (U "class A {
  {
    new List<Id>{ '0010B00001kL7i0QAC' };

    String[] values = new String[0];

    stringArray = new String[0];
    stringArray = new String[0];

    Integer index = 5;
    stringArray = new List<String>(index);
    stringArray = new List<String>(index);

    List<List<String>> listOfList = new List<List<String>>();

    List<List<String>> listOfList = new List<List<String>>(0);
  }
}
").
Proof. apply run_test_ok. vm_compute. reflexivity. Qed.

(* tests/prettier80/binary_exp_nested.in *)
Definition prettier80_binary_exp_nested_source : ustr := U "class Conditional {
  {
    if ( isA() || isB()|| isC()) {
      System.debug('true');
    }
  }
}

".
Definition prettier80_binary_exp_nested_tree : span := (B "parser_output" 1 0 100 0 8 [(B "class_declaration" 2 0 98 0 6 [(A "class" 3 0 5 0 0 []); (B "identifier" 4 6 17 0 0 [] # "name"); (B "class_body" 5 18 98 0 6 [(A "{" 6 18 19 0 0 []); (B "block" 7 22 96 1 5 [(A "{" 8 22 23 1 1 []); (B "if_statement" 9 28 92 2 4 [(A "if" 10 28 30 2 2 []); (B "parenthesized_expression" 11 31 56 2 2 [(A "(" 12 31 32 2 2 []); (B "binary_expression" 13 33 55 2 2 [(B "binary_expression" 14 33 47 2 2 [(B "method_invocation" 15 33 38 2 2 [(B "identifier" 16 33 36 2 2 [] # "name"); (B "argument_list" 17 36 38 2 2 [(A "(" 18 36 37 2 2 []); (A ")" 19 37 38 2 2 [])] # "arguments")] # "left"); (A "||" 20 39 41 2 2 [] # "operator"); (B "method_invocation" 21 42 47 2 2 [(B "identifier" 22 42 45 2 2 [] # "name"); (B "argument_list" 23 45 47 2 2 [(A "(" 24 45 46 2 2 []); (A ")" 25 46 47 2 2 [])] # "arguments")] # "right")] # "left"); (A "||" 26 47 49 2 2 [] # "operator"); (B "method_invocation" 27 50 55 2 2 [(B "identifier" 28 50 53 2 2 [] # "name"); (B "argument_list" 29 53 55 2 2 [(A "(" 30 53 54 2 2 []); (A ")" 31 54 55 2 2 [])] # "arguments")] # "right")]); (A ")" 32 55 56 2 2 [])] # "condition"); (B "block" 33 57 92 2 4 [(A "{" 34 57 58 2 2 []); (B "expression_statement" 35 65 86 3 3 [(B "method_invocation" 36 65 85 3 3 [(B "identifier" 37 65 71 3 3 [] # "object"); (A "." 38 71 72 3 3 []); (B "identifier" 39 72 77 3 3 [] # "name"); (B "argument_list" 40 77 85 3 3 [(A "(" 41 77 78 3 3 []); (B "string_literal" 42 78 84 3 3 []); (A ")" 43 84 85 3 3 [])] # "arguments")]); (A ";" 44 85 86 3 3 [])]); (A "}" 45 91 92 4 4 [])] # "consequence")]); (A "}" 46 95 96 5 5 [])]); (A "}" 47 97 98 6 6 [])] # "body")])]).
Example prettier80_binary_exp_nested : as_expected prettier80_binary_exp_nested_source prettier80_binary_exp_nested_tree (U "class Conditional {
  {
    if (isA() || isB() || isC()) {
      System.debug('true');
    }
  }
}
").
Proof. apply run_test_ok. vm_compute. reflexivity. Qed.

(* tests/prettier80/binary_exp_no_warp.in *)
Definition prettier80_binary_exp_no_warp_source : ustr := U "class Conditional {
  {
    if (isALongVeryAAAAAAAAAAAAAAAAAAAAAAAAAAA() 
  ||isALongVeryBBBBBBBBBBBB()) {
      System.debug('true');
    }
  }
}
".
Definition prettier80_binary_exp_no_warp_tree : span := (B "parser_output" 1 0 147 0 8 [(B "class_declaration" 2 0 146 0 7 [(A "class" 3 0 5 0 0 []); (B "identifier" 4 6 17 0 0 [] # "name"); (B "class_body" 5 18 146 0 7 [(A "{" 6 18 19 0 0 []); (B "block" 7 22 144 1 6 [(A "{" 8 22 23 1 1 []); (B "if_statement" 9 28 140 2 5 [(A "if" 10 28 30 2 2 []); (B "parenthesized_expression" 11 31 104 2 3 [(A "(" 12 31 32 2 2 []); (B "binary_expression" 13 32 103 2 3 [(B "method_invocation" 14 32 72 2 2 [(B "identifier" 15 32 70 2 2 [] # "name"); (B "argument_list" 16 70 72 2 2 [(A "(" 17 70 71 2 2 []); (A ")" 18 71 72 2 2 [])] # "arguments")] # "left"); (A "||" 19 76 78 3 3 [] # "operator"); (B "method_invocation" 20 78 103 3 3 [(B "identifier" 21 78 101 3 3 [] # "name"); (B "argument_list" 22 101 103 3 3 [(A "(" 23 101 102 3 3 []); (A ")" 24 102 103 3 3 [])] # "arguments")] # "right")]); (A ")" 25 103 104 3 3 [])] # "condition"); (B "block" 26 105 140 3 5 [(A "{" 27 105 106 3 3 []); (B "expression_statement" 28 113 134 4 4 [(B "method_invocation" 29 113 133 4 4 [(B "identifier" 30 113 119 4 4 [] # "object"); (A "." 31 119 120 4 4 []); (B "identifier" 32 120 125 4 4 [] # "name"); (B "argument_list" 33 125 133 4 4 [(A "(" 34 125 126 4 4 []); (B "string_literal" 35 126 132 4 4 []); (A ")" 36 132 133 4 4 [])] # "arguments")]); (A ";" 37 133 134 4 4 [])]); (A "}" 38 139 140 5 5 [])] # "consequence")]); (A "}" 39 143 144 6 6 [])]); (A "}" 40 145 146 7 7 [])] # "body")])]).
Example prettier80_binary_exp_no_warp : as_expected prettier80_binary_exp_no_warp_source prettier80_binary_exp_no_warp_tree (U "class Conditional {
  {
    if (isALongVeryAAAAAAAAAAAAAAAAAAAAAAAAAAA() || isALongVeryBBBBBBBBBBBB()) {
      System.debug('true');
    }
  }
}
").
Proof. apply run_test_ok. vm_compute. reflexivity. Qed.

(* tests/prettier80/body_spaces.in *)
Definition prettier80_body_spaces_source : ustr := U "public with sharing class MyClass {

  private String s;



  private String k;






  private String j;


  Integer m;


  

}

".
Definition prettier80_body_spaces_tree : span := (B "parser_output" 1 0 130 0 23 [(B "class_declaration" 2 0 128 0 21 [(B "modifiers" 3 0 19 0 0 [(B "modifier" 4 0 6 0 0 [(B "public" 5 0 6 0 0 [(A "public" 6 0 6 0 0 [])])]); (B "modifier" 7 7 19 0 0 [(B "with_sharing" 8 7 19 0 0 [(A "with" 9 7 11 0 0 []); (A "sharing" 10 12 19 0 0 [])])])]); (A "class" 11 20 25 0 0 []); (B "identifier" 12 26 33 0 0 [] # "name"); (B "class_body" 13 34 128 0 21 [(A "{" 14 34 35 0 0 []); (B "field_declaration" 15 39 56 2 2 [(B "modifiers" 16 39 46 2 2 [(B "modifier" 17 39 46 2 2 [(B "private" 18 39 46 2 2 [(A "private" 19 39 46 2 2 [])])])]); (B "type_identifier" 20 47 53 2 2 [] # "type"); (B "variable_declarator" 21 54 55 2 2 [(B "identifier" 22 54 55 2 2 [] # "name")] # "declarator"); (A ";" 23 55 56 2 2 [])]); (B "field_declaration" 24 62 79 6 6 [(B "modifiers" 25 62 69 6 6 [(B "modifier" 26 62 69 6 6 [(B "private" 27 62 69 6 6 [(A "private" 28 62 69 6 6 [])])])]); (B "type_identifier" 29 70 76 6 6 [] # "type"); (B "variable_declarator" 30 77 78 6 6 [(B "identifier" 31 77 78 6 6 [] # "name")] # "declarator"); (A ";" 32 78 79 6 6 [])]); (B "field_declaration" 33 88 105 13 13 [(B "modifiers" 34 88 95 13 13 [(B "modifier" 35 88 95 13 13 [(B "private" 36 88 95 13 13 [(A "private" 37 88 95 13 13 [])])])]); (B "type_identifier" 38 96 102 13 13 [] # "type"); (B "variable_declarator" 39 103 104 13 13 [(B "identifier" 40 103 104 13 13 [] # "name")] # "declarator"); (A ";" 41 104 105 13 13 [])]); (B "field_declaration" 42 110 120 16 16 [(B "type_identifier" 43 110 117 16 16 [] # "type"); (B "variable_declarator" 44 118 119 16 16 [(B "identifier" 45 118 119 16 16 [] # "name")] # "declarator"); (A ";" 46 119 120 16 16 [])]); (A "}" 47 127 128 21 21 [])] # "body")])]).
Example prettier80_body_spaces : as_expected prettier80_body_spaces_source prettier80_body_spaces_tree (U "public with sharing class MyClass {
  private String s;

  private String k;

  private String j;

  Integer m;
}
").
Proof. apply run_test_ok. vm_compute. reflexivity. Qed.

(* tests/prettier80/bug92.in *)
Definition prettier80_bug92_source : ustr := U "// https://github.com/xixiaofinland/afmt/issues/92
// the line after super() is not indented correctly;
class A {
  public createEventProerties(String origin, String period) {
    super(OriginSalesforce);
    System.debug('hello');
  }
}
".
Definition prettier80_bug92_tree : span := (B "parser_output" 1 0 238 0 8 [(C "line_comment" 2 0 50 0 0 []); (C "line_comment" 3 51 103 1 1 []); (B "class_declaration" 4 104 237 2 7 [(A "class" 5 104 109 2 2 []); (B "identifier" 6 110 111 2 2 [] # "name"); (B "class_body" 7 112 237 2 7 [(A "{" 8 112 113 2 2 []); (B "constructor_declaration" 9 116 235 3 6 [(B "modifiers" 10 116 122 3 3 [(B "modifier" 11 116 122 3 3 [(B "public" 12 116 122 3 3 [(A "public" 13 116 122 3 3 [])])])]); (B "identifier" 14 123 143 3 3 [] # "name"); (B "formal_parameters" 15 143 173 3 3 [(A "(" 16 143 144 3 3 []); (B "formal_parameter" 17 144 157 3 3 [(B "type_identifier" 18 144 150 3 3 [] # "type"); (B "identifier" 19 151 157 3 3 [] # "name")]); (A "," 20 157 158 3 3 []); (B "formal_parameter" 21 159 172 3 3 [(B "type_identifier" 22 159 165 3 3 [] # "type"); (B "identifier" 23 166 172 3 3 [] # "name")]); (A ")" 24 172 173 3 3 [])] # "parameters"); (B "constructor_body" 25 174 235 3 6 [(A "{" 26 174 175 3 3 []); (B "explicit_constructor_invocation" 27 180 204 4 4 [(B "super" 28 180 185 4 4 [] # "constructor"); (B "argument_list" 29 185 203 4 4 [(A "(" 30 185 186 4 4 []); (B "identifier" 31 186 202 4 4 []); (A ")" 32 202 203 4 4 [])] # "arguments"); (A ";" 33 203 204 4 4 [])]); (B "expression_statement" 34 209 231 5 5 [(B "method_invocation" 35 209 230 5 5 [(B "identifier" 36 209 215 5 5 [] # "object"); (A "." 37 215 216 5 5 []); (B "identifier" 38 216 221 5 5 [] # "name"); (B "argument_list" 39 221 230 5 5 [(A "(" 40 221 222 5 5 []); (B "string_literal" 41 222 229 5 5 []); (A ")" 42 229 230 5 5 [])] # "arguments")]); (A ";" 43 230 231 5 5 [])]); (A "}" 44 234 235 6 6 [])] # "body")]); (A "}" 45 236 237 7 7 [])] # "body")])]).
Example prettier80_bug92 : as_expected prettier80_bug92_source prettier80_bug92_tree (U "// https://github.com/xixiaofinland/afmt/issues/92
// the line after super() is not indented correctly;
class A {
  public createEventProerties(String origin, String period) {
    super(OriginSalesforce);
    System.debug('hello');
  }
}
").
Proof. apply run_test_ok. vm_compute. reflexivity. Qed.

(* tests/prettier80/c1.in *)
Definition prettier80_c1_source : ustr := U "  public 
  class 
     HelloWorld      {



 }
".
Definition prettier80_c1_tree : span := (B "parser_output" 1 2 48 0 7 [(B "class_declaration" 2 2 47 0 6 [(B "modifiers" 3 2 8 0 0 [(B "modifier" 4 2 8 0 0 [(B "public" 5 2 8 0 0 [(A "public" 6 2 8 0 0 [])])])]); (A "class" 7 12 17 1 1 []); (B "identifier" 8 24 34 2 2 [] # "name"); (B "class_body" 9 40 47 2 6 [(A "{" 10 40 41 2 2 []); (A "}" 11 46 47 6 6 [])] # "body")])]).
Example prettier80_c1 : as_expected prettier80_c1_source prettier80_c1_tree (U "public class HelloWorld {
}
").
Proof. apply run_test_ok. vm_compute. reflexivity. Qed.

(* tests/prettier80/c2.in *)
Definition prettier80_c2_source : ustr := U "public class Me {

    public class Inside {
        {

          }
  }

}
".
Definition prettier80_c2_tree : span := (B "parser_output" 1 0 75 0 9 [(B "class_declaration" 2 0 74 0 8 [(B "modifiers" 3 0 6 0 0 [(B "modifier" 4 0 6 0 0 [(B "public" 5 0 6 0 0 [(A "public" 6 0 6 0 0 [])])])]); (A "class" 7 7 12 0 0 []); (B "identifier" 8 13 15 0 0 [] # "name"); (B "class_body" 9 16 74 0 8 [(A "{" 10 16 17 0 0 []); (B "class_declaration" 11 23 71 2 6 [(B "modifiers" 12 23 29 2 2 [(B "modifier" 13 23 29 2 2 [(B "public" 14 23 29 2 2 [(A "public" 15 23 29 2 2 [])])])]); (A "class" 16 30 35 2 2 []); (B "identifier" 17 36 42 2 2 [] # "name"); (B "class_body" 18 43 71 2 6 [(A "{" 19 43 44 2 2 []); (B "block" 20 53 67 3 5 [(A "{" 21 53 54 3 3 []); (A "}" 22 66 67 5 5 [])]); (A "}" 23 70 71 6 6 [])] # "body")]); (A "}" 24 73 74 8 8 [])] # "body")])]).
Example prettier80_c2 : as_expected prettier80_c2_source prettier80_c2_tree (U "public class Me {
  public class Inside {
    {
    }
  }
}
").
Proof. apply run_test_ok. vm_compute. reflexivity. Qed.

(* tests/prettier80/c3.in *)
Definition prettier80_c3_source : ustr := U "public   class Me    implements 
  Interface1 
  {
}
".
Definition prettier80_c3_tree : span := (B "parser_output" 1 0 53 0 4 [(B "class_declaration" 2 0 52 0 3 [(B "modifiers" 3 0 6 0 0 [(B "modifier" 4 0 6 0 0 [(B "public" 5 0 6 0 0 [(A "public" 6 0 6 0 0 [])])])]); (A "class" 7 9 14 0 0 []); (B "identifier" 8 15 17 0 0 [] # "name"); (B "interfaces" 9 21 45 0 1 [(A "implements" 10 21 31 0 0 []); (B "type_list" 11 35 45 1 1 [(B "type_identifier" 12 35 45 1 1 [])])]); (B "class_body" 13 49 52 2 3 [(A "{" 14 49 50 2 2 []); (A "}" 15 51 52 3 3 [])] # "body")])]).
Example prettier80_c3 : as_expected prettier80_c3_source prettier80_c3_tree (U "public class Me implements Interface1 {
}
").
Proof. apply run_test_ok. vm_compute. reflexivity. Qed.

(* tests/prettier80/c4.in *)
Definition prettier80_c4_source : ustr := U "public class Me   
   implements Interface1  , 
     Interface2 
{
  }

".
Definition prettier80_c4_tree : span := (B "parser_output" 1 0 72 0 6 [(B "class_declaration" 2 0 70 0 4 [(B "modifiers" 3 0 6 0 0 [(B "modifier" 4 0 6 0 0 [(B "public" 5 0 6 0 0 [(A "public" 6 0 6 0 0 [])])])]); (A "class" 7 7 12 0 0 []); (B "identifier" 8 13 15 0 0 [] # "name"); (B "interfaces" 9 22 63 1 2 [(A "implements" 10 22 32 1 1 []); (B "type_list" 11 33 63 1 2 [(B "type_identifier" 12 33 43 1 1 []); (A "," 13 45 46 1 1 []); (B "type_identifier" 14 53 63 2 2 [])])]); (B "class_body" 15 65 70 3 4 [(A "{" 16 65 66 3 3 []); (A "}" 17 69 70 4 4 [])] # "body")])]).
Example prettier80_c4 : as_expected prettier80_c4_source prettier80_c4_tree (U "public class Me implements Interface1, Interface2 {
}
").
Proof. apply run_test_ok. vm_compute. reflexivity. Qed.

(* tests/prettier80/c5.in *)
Definition prettier80_c5_source : ustr := U "public class   Subclass    extends    
Superclass {
  public   override  
    void printName()
    {
            super.printName();
        System.debug ('But you can call me ' 
         + super.getFirstName()
    )   ;
          }
}

".
Definition prettier80_c5_tree : span := (B "parser_output" 1 0 235 0 12 [(B "class_declaration" 2 0 233 0 10 [(B "modifiers" 3 0 6 0 0 [(B "modifier" 4 0 6 0 0 [(B "public" 5 0 6 0 0 [(A "public" 6 0 6 0 0 [])])])]); (A "class" 7 7 12 0 0 []); (B "identifier" 8 15 23 0 0 [] # "name"); (B "superclass" 9 27 49 0 1 [(A "extends" 10 27 34 0 0 []); (B "type_identifier" 11 39 49 1 1 [])]); (B "class_body" 12 50 233 1 10 [(A "{" 13 50 51 1 1 []); (B "method_declaration" 14 54 231 2 9 [(B "modifiers" 15 54 71 2 2 [(B "modifier" 16 54 60 2 2 [(B "public" 17 54 60 2 2 [(A "public" 18 54 60 2 2 [])])]); (B "modifier" 19 63 71 2 2 [(B "override" 20 63 71 2 2 [(A "override" 21 63 71 2 2 [])])])]); (B "void_type" 22 78 82 3 3 [] # "type"); (B "identifier" 23 83 92 3 3 [] # "name"); (B "formal_parameters" 24 92 94 3 3 [(A "(" 25 92 93 3 3 []); (A ")" 26 93 94 3 3 [])] # "parameters"); (B "block" 27 99 231 4 9 [(A "{" 28 99 100 4 4 []); (B "expression_statement" 29 113 131 5 5 [(B "method_invocation" 30 113 130 5 5 [(B "super" 31 113 118 5 5 [] # "object"); (A "." 32 118 119 5 5 []); (B "identifier" 33 119 128 5 5 [] # "name"); (B "argument_list" 34 128 130 5 5 [(A "(" 35 128 129 5 5 []); (A ")" 36 129 130 5 5 [])] # "arguments")]); (A ";" 37 130 131 5 5 [])]); (B "expression_statement" 38 140 219 6 8 [(B "method_invocation" 39 140 215 6 8 [(B "identifier" 40 140 146 6 6 [] # "object"); (A "." 41 146 147 6 6 []); (B "identifier" 42 147 152 6 6 [] # "name"); (B "argument_list" 43 153 215 6 8 [(A "(" 44 153 154 6 6 []); (B "binary_expression" 45 154 209 6 7 [(B "string_literal" 46 154 176 6 6 [] # "left"); (A "+" 47 187 188 7 7 [] # "operator"); (B "method_invocation" 48 189 209 7 7 [(B "super" 49 189 194 7 7 [] # "object"); (A "." 50 194 195 7 7 []); (B "identifier" 51 195 207 7 7 [] # "name"); (B "argument_list" 52 207 209 7 7 [(A "(" 53 207 208 7 7 []); (A ")" 54 208 209 7 7 [])] # "arguments")] # "right")]); (A ")" 55 214 215 8 8 [])] # "arguments")]); (A ";" 56 218 219 8 8 [])]); (A "}" 57 230 231 9 9 [])] # "body")]); (A "}" 58 232 233 10 10 [])] # "body")])]).
Example prettier80_c5 : as_expected prettier80_c5_source prettier80_c5_tree (U "public class Subclass extends Superclass {
  public override void printName() {
    super.printName();
    System.debug('But you can call me ' + super.getFirstName());
  }
}
").
Proof. apply run_test_ok. vm_compute. reflexivity. Qed.

(* tests/prettier80/c8.in *)
Definition prettier80_c8_source : ustr := U "public with sharing     class        MyClass {
    private String s;
        private String             k;
}
".
Definition prettier80_c8_tree : span := (B "parser_output" 1 0 109 0 4 [(B "class_declaration" 2 0 108 0 3 [(B "modifiers" 3 0 19 0 0 [(B "modifier" 4 0 6 0 0 [(B "public" 5 0 6 0 0 [(A "public" 6 0 6 0 0 [])])]); (B "modifier" 7 7 19 0 0 [(B "with_sharing" 8 7 19 0 0 [(A "with" 9 7 11 0 0 []); (A "sharing" 10 12 19 0 0 [])])])]); (A "class" 11 24 29 0 0 []); (B "identifier" 12 37 44 0 0 [] # "name"); (B "class_body" 13 45 108 0 3 [(A "{" 14 45 46 0 0 []); (B "field_declaration" 15 51 68 1 1 [(B "modifiers" 16 51 58 1 1 [(B "modifier" 17 51 58 1 1 [(B "private" 18 51 58 1 1 [(A "private" 19 51 58 1 1 [])])])]); (B "type_identifier" 20 59 65 1 1 [] # "type"); (B "variable_declarator" 21 66 67 1 1 [(B "identifier" 22 66 67 1 1 [] # "name")] # "declarator"); (A ";" 23 67 68 1 1 [])]); (B "field_declaration" 24 77 106 2 2 [(B "modifiers" 25 77 84 2 2 [(B "modifier" 26 77 84 2 2 [(B "private" 27 77 84 2 2 [(A "private" 28 77 84 2 2 [])])])]); (B "type_identifier" 29 85 91 2 2 [] # "type"); (B "variable_declarator" 30 104 105 2 2 [(B "identifier" 31 104 105 2 2 [] # "name")] # "declarator"); (A ";" 32 105 106 2 2 [])]); (A "}" 33 107 108 3 3 [])] # "body")])]).
Example prettier80_c8 : as_expected prettier80_c8_source prettier80_c8_tree (U "public with sharing class MyClass {
  private String s;
  private String k;
}
").
Proof. apply run_test_ok. vm_compute. reflexivity. Qed.

(* tests/prettier80/cast1.in *)
Definition prettier80_cast1_source : ustr := U "public class Me {
  {
    Account a = new Account(NumberOfEmployees = 7);
    Object objA = a;
    Integer totalRecords = ((Account ) objA  ).NumberOfEmployees;
  }
}
".
Definition prettier80_cast1_tree : span := (B "parser_output" 1 0 167 0 7 [(B "class_declaration" 2 0 166 0 6 [(B "modifiers" 3 0 6 0 0 [(B "modifier" 4 0 6 0 0 [(B "public" 5 0 6 0 0 [(A "public" 6 0 6 0 0 [])])])]); (A "class" 7 7 12 0 0 []); (B "identifier" 8 13 15 0 0 [] # "name"); (B "class_body" 9 16 166 0 6 [(A "{" 10 16 17 0 0 []); (B "block" 11 20 164 1 5 [(A "{" 12 20 21 1 1 []); (B "local_variable_declaration" 13 26 73 2 2 [(B "type_identifier" 14 26 33 2 2 [] # "type"); (B "variable_declarator" 15 34 72 2 2 [(B "identifier" 16 34 35 2 2 [] # "name"); (B "assignment_operator" 17 36 37 2 2 [(A "=" 18 36 37 2 2 [])]); (B "object_creation_expression" 19 38 72 2 2 [(A "new" 20 38 41 2 2 []); (B "type_identifier" 21 42 49 2 2 [] # "type"); (B "argument_list" 22 49 72 2 2 [(A "(" 23 49 50 2 2 []); (B "assignment_expression" 24 50 71 2 2 [(B "identifier" 25 50 67 2 2 [] # "left"); (B "assignment_operator" 26 68 69 2 2 [(A "=" 27 68 69 2 2 [])] # "operator"); (B "int" 28 70 71 2 2 [] # "right")]); (A ")" 29 71 72 2 2 [])] # "arguments")] # "value")] # "declarator"); (A ";" 30 72 73 2 2 [])]); (B "local_variable_declaration" 31 78 94 3 3 [(B "type_identifier" 32 78 84 3 3 [] # "type"); (B "variable_declarator" 33 85 93 3 3 [(B "identifier" 34 85 89 3 3 [] # "name"); (B "assignment_operator" 35 90 91 3 3 [(A "=" 36 90 91 3 3 [])]); (B "identifier" 37 92 93 3 3 [] # "value")] # "declarator"); (A ";" 38 93 94 3 3 [])]); (B "local_variable_declaration" 39 99 160 4 4 [(B "type_identifier" 40 99 106 4 4 [] # "type"); (B "variable_declarator" 41 107 159 4 4 [(B "identifier" 42 107 119 4 4 [] # "name"); (B "assignment_operator" 43 120 121 4 4 [(A "=" 44 120 121 4 4 [])]); (B "field_access" 45 122 159 4 4 [(B "parenthesized_expression" 46 122 141 4 4 [(A "(" 47 122 123 4 4 []); (B "cast_expression" 48 123 138 4 4 [(A "(" 49 123 124 4 4 []); (B "type_identifier" 50 124 131 4 4 [] # "type"); (A ")" 51 132 133 4 4 []); (B "identifier" 52 134 138 4 4 [] # "value")]); (A ")" 53 140 141 4 4 [])] # "object"); (A "." 54 141 142 4 4 []); (B "identifier" 55 142 159 4 4 [] # "field")] # "value")] # "declarator"); (A ";" 56 159 160 4 4 [])]); (A "}" 57 163 164 5 5 [])]); (A "}" 58 165 166 6 6 [])] # "body")])]).
Example prettier80_cast1 : as_expected prettier80_cast1_source prettier80_cast1_tree (U "public class Me {
  {
    Account a = new Account(NumberOfEmployees = 7);
    Object objA = a;
    Integer totalRecords = ((Account) objA).NumberOfEmployees;
  }
}
").
Proof. apply run_test_ok. vm_compute. reflexivity. Qed.

(* tests/prettier80/class_literal.in *)
Definition prettier80_class_literal_source : ustr := U "class A {
  {
    Account.class;
    JSON.deserialize(fileIdString, List<String>.class);
  }
}
".
Definition prettier80_class_literal_tree : span := (B "parser_output" 1 0 95 0 6 [(B "class_declaration" 2 0 94 0 5 [(A "class" 3 0 5 0 0 []); (B "identifier" 4 6 7 0 0 [] # "name"); (B "class_body" 5 8 94 0 5 [(A "{" 6 8 9 0 0 []); (B "block" 7 12 92 1 4 [(A "{" 8 12 13 1 1 []); (B "expression_statement" 9 18 32 2 2 [(B "class_literal" 10 18 31 2 2 [(B "type_identifier" 11 18 25 2 2 []); (A "." 12 25 26 2 2 []); (A "class" 13 26 31 2 2 [])]); (A ";" 14 31 32 2 2 [])]); (B "expression_statement" 15 37 88 3 3 [(B "method_invocation" 16 37 87 3 3 [(B "identifier" 17 37 41 3 3 [] # "object"); (A "." 18 41 42 3 3 []); (B "identifier" 19 42 53 3 3 [] # "name"); (B "argument_list" 20 53 87 3 3 [(A "(" 21 53 54 3 3 []); (B "identifier" 22 54 66 3 3 []); (A "," 23 66 67 3 3 []); (B "class_literal" 24 68 86 3 3 [(B "generic_type" 25 68 80 3 3 [(B "type_identifier" 26 68 72 3 3 []); (B "type_arguments" 27 72 80 3 3 [(A "<" 28 72 73 3 3 []); (B "type_identifier" 29 73 79 3 3 []); (A ">" 30 79 80 3 3 [])])]); (A "." 31 80 81 3 3 []); (A "class" 32 81 86 3 3 [])]); (A ")" 33 86 87 3 3 [])] # "arguments")]); (A ";" 34 87 88 3 3 [])]); (A "}" 35 91 92 4 4 [])]); (A "}" 36 93 94 5 5 [])] # "body")])]).
Example prettier80_class_literal : as_expected prettier80_class_literal_source prettier80_class_literal_tree (U "class A {
  {
    Account.class;
    JSON.deserialize(fileIdString, List<String>.class);
  }
}
").
Proof. apply run_test_ok. vm_compute. reflexivity. Qed.

(* tests/prettier80/comment1.in *)
Definition prettier80_comment1_source : ustr := U "      /* Block Comment 
        test 123
      */
class BlockTrailingCommentAfterClass { 
  public BlockTrailingCommentsAfterClass() {}
}
".
Definition prettier80_comment1_tree : span := (B "parser_output" 1 6 138 0 6 [(C "block_comment" 2 6 49 0 2 []); (B "class_declaration" 3 50 137 3 5 [(A "class" 4 50 55 3 3 []); (B "identifier" 5 56 86 3 3 [] # "name"); (B "class_body" 6 87 137 3 5 [(A "{" 7 87 88 3 3 []); (B "constructor_declaration" 8 92 135 4 4 [(B "modifiers" 9 92 98 4 4 [(B "modifier" 10 92 98 4 4 [(B "public" 11 92 98 4 4 [(A "public" 12 92 98 4 4 [])])])]); (B "identifier" 13 99 130 4 4 [] # "name"); (B "formal_parameters" 14 130 132 4 4 [(A "(" 15 130 131 4 4 []); (A ")" 16 131 132 4 4 [])] # "parameters"); (B "constructor_body" 17 133 135 4 4 [(A "{" 18 133 134 4 4 []); (A "}" 19 134 135 4 4 [])] # "body")]); (A "}" 20 136 137 5 5 [])] # "body")])]).
Example prettier80_comment1 : as_expected prettier80_comment1_source prettier80_comment1_tree (U "/* Block Comment
test 123
*/
class BlockTrailingCommentAfterClass {
  public BlockTrailingCommentsAfterClass() {
  }
}
").
Proof. apply run_test_ok. vm_compute. reflexivity. Qed.

(* tests/prettier80/comments_in_soql.in *)
Definition prettier80_comments_in_soql_source : ustr := U "class TestClass {
  {
    List<SObject> records = [ // test comment 1
      SELECT // test comment 2
      // test comment 3
    Id, Name, // test comment 4
    // test comment 5
    Phone // test comment 6
    // test comment 7
    FROM // test comment 8
    Account // test comment 9
    ];
  }
}
".
Definition prettier80_comments_in_soql_tree : span := (B "parser_output" 1 0 299 0 14 [(B "class_declaration" 2 0 298 0 13 [(A "class" 3 0 5 0 0 []); (B "identifier" 4 6 15 0 0 [] # "name"); (B "class_body" 5 16 298 0 13 [(A "{" 6 16 17 0 0 []); (B "block" 7 20 296 1 12 [(A "{" 8 20 21 1 1 []); (B "local_variable_declaration" 9 26 292 2 11 [(B "generic_type" 10 26 39 2 2 [(B "type_identifier" 11 26 30 2 2 []); (B "type_arguments" 12 30 39 2 2 [(A "<" 13 30 31 2 2 []); (B "type_identifier" 14 31 38 2 2 []); (A ">" 15 38 39 2 2 [])])] # "type"); (B "variable_declarator" 16 40 291 2 11 [(B "identifier" 17 40 47 2 2 [] # "name"); (B "assignment_operator" 18 48 49 2 2 [(A "=" 19 48 49 2 2 [])]); (B "query_expression" 20 50 291 2 11 [(A "[" 21 50 51 2 2 []); (C "line_comment" 22 52 69 2 2 []); (B "soql_query_body" 23 76 267 3 10 [(B "select_clause" 24 76 188 3 7 [(A "SELECT" 25 76 82 3 3 []); (C "line_comment" 26 83 100 3 3 []); (C "line_comment" 27 107 124 4 4 []); (B "field_identifier" 28 129 131 5 5 [(B "identifier" 29 129 131 5 5 [])]); (A "," 30 131 132 5 5 []); (B "field_identifier" 31 133 137 5 5 [(B "identifier" 32 133 137 5 5 [])]); (A "," 33 137 138 5 5 []); (C "line_comment" 34 139 156 5 5 []); (C "line_comment" 35 161 178 6 6 []); (B "field_identifier" 36 183 188 7 7 [(B "identifier" 37 183 188 7 7 [])])] # "select_clause"); (C "line_comment" 38 189 206 7 7 []); (C "line_comment" 39 211 228 8 8 []); (B "from_clause" 40 233 267 9 10 [(A "FROM" 41 233 237 9 9 []); (C "line_comment" 42 238 255 9 9 []); (B "storage_identifier" 43 260 267 10 10 [(B "identifier" 44 260 267 10 10 [])])] # "from_clause")]); (C "line_comment" 45 268 285 10 10 []); (A "]" 46 290 291 11 11 [])] # "value")] # "declarator"); (A ";" 47 291 292 11 11 [])]); (A "}" 48 295 296 12 12 [])]); (A "}" 49 297 298 13 13 [])] # "body")])]).
Example prettier80_comments_in_soql : as_expected prettier80_comments_in_soql_source prettier80_comments_in_soql_tree (U "class TestClass {
  {
    List<SObject> records = [
      // test comment 1
      SELECT
        // test comment 2
        // test comment 3
        Id,
        Name, // test comment 4
        // test comment 5
        Phone // test comment 6
      // test comment 7
      FROM // test comment 8
      Account // test comment 9
    ];
  }
}
").
Proof. apply run_test_ok. vm_compute. reflexivity. Qed.

(* tests/prettier80/con10.in *)
Definition prettier80_con10_source : ustr := U "public class Me {
    {
        for(  ; i < 3  ; i++  )
        {
            System.debug(i);
            }
        
    }
}
".
Definition prettier80_con10_tree : span := (B "parser_output" 1 0 126 0 9 [(B "class_declaration" 2 0 125 0 8 [(B "modifiers" 3 0 6 0 0 [(B "modifier" 4 0 6 0 0 [(B "public" 5 0 6 0 0 [(A "public" 6 0 6 0 0 [])])])]); (A "class" 7 7 12 0 0 []); (B "identifier" 8 13 15 0 0 [] # "name"); (B "class_body" 9 16 125 0 8 [(A "{" 10 16 17 0 0 []); (B "block" 11 22 123 1 7 [(A "{" 12 22 23 1 1 []); (B "for_statement" 13 32 108 2 5 [(A "for" 14 32 35 2 2 []); (A "(" 15 35 36 2 2 []); (A ";" 16 38 39 2 2 []); (B "binary_expression" 17 40 45 2 2 [(B "identifier" 18 40 41 2 2 [] # "left"); (A "<" 19 42 43 2 2 [] # "operator"); (B "int" 20 44 45 2 2 [] # "right")] # "condition"); (A ";" 21 47 48 2 2 []); (B "update_expression" 22 49 52 2 2 [(B "identifier" 23 49 50 2 2 [] # "operand"); (A "++" 24 50 52 2 2 [] # "operator")] # "update"); (A ")" 25 54 55 2 2 []); (B "block" 26 64 108 3 5 [(A "{" 27 64 65 3 3 []); (B "expression_statement" 28 78 94 4 4 [(B "method_invocation" 29 78 93 4 4 [(B "identifier" 30 78 84 4 4 [] # "object"); (A "." 31 84 85 4 4 []); (B "identifier" 32 85 90 4 4 [] # "name"); (B "argument_list" 33 90 93 4 4 [(A "(" 34 90 91 4 4 []); (B "identifier" 35 91 92 4 4 []); (A ")" 36 92 93 4 4 [])] # "arguments")]); (A ";" 37 93 94 4 4 [])]); (A "}" 38 107 108 5 5 [])] # "body")]); (A "}" 39 122 123 7 7 [])]); (A "}" 40 124 125 8 8 [])] # "body")])]).
Example prettier80_con10 : as_expected prettier80_con10_source prettier80_con10_tree (U "public class Me {
  {
    for (; i < 3; i++) {
      System.debug(i);
    }
  }
}
").
Proof. apply run_test_ok. vm_compute. reflexivity. Qed.

(* tests/prettier80/con11.in *)
Definition prettier80_con11_source : ustr := U "public class Me {
    {
        for( Integer i=0 ;     ; i++  )
        {
            System.debug(i);
            }
        
    }
}
".
Definition prettier80_con11_tree : span := (B "parser_output" 1 0 134 0 9 [(B "class_declaration" 2 0 133 0 8 [(B "modifiers" 3 0 6 0 0 [(B "modifier" 4 0 6 0 0 [(B "public" 5 0 6 0 0 [(A "public" 6 0 6 0 0 [])])])]); (A "class" 7 7 12 0 0 []); (B "identifier" 8 13 15 0 0 [] # "name"); (B "class_body" 9 16 133 0 8 [(A "{" 10 16 17 0 0 []); (B "block" 11 22 131 1 7 [(A "{" 12 22 23 1 1 []); (B "for_statement" 13 32 116 2 5 [(A "for" 14 32 35 2 2 []); (A "(" 15 35 36 2 2 []); (B "local_variable_declaration" 16 37 50 2 2 [(B "type_identifier" 17 37 44 2 2 [] # "type"); (B "variable_declarator" 18 45 48 2 2 [(B "identifier" 19 45 46 2 2 [] # "name"); (B "assignment_operator" 20 46 47 2 2 [(A "=" 21 46 47 2 2 [])]); (B "int" 22 47 48 2 2 [] # "value")] # "declarator"); (A ";" 23 49 50 2 2 [])] # "init"); (A ";" 24 55 56 2 2 []); (B "update_expression" 25 57 60 2 2 [(B "identifier" 26 57 58 2 2 [] # "operand"); (A "++" 27 58 60 2 2 [] # "operator")] # "update"); (A ")" 28 62 63 2 2 []); (B "block" 29 72 116 3 5 [(A "{" 30 72 73 3 3 []); (B "expression_statement" 31 86 102 4 4 [(B "method_invocation" 32 86 101 4 4 [(B "identifier" 33 86 92 4 4 [] # "object"); (A "." 34 92 93 4 4 []); (B "identifier" 35 93 98 4 4 [] # "name"); (B "argument_list" 36 98 101 4 4 [(A "(" 37 98 99 4 4 []); (B "identifier" 38 99 100 4 4 []); (A ")" 39 100 101 4 4 [])] # "arguments")]); (A ";" 40 101 102 4 4 [])]); (A "}" 41 115 116 5 5 [])] # "body")]); (A "}" 42 130 131 7 7 [])]); (A "}" 43 132 133 8 8 [])] # "body")])]).
Example prettier80_con11 : as_expected prettier80_con11_source prettier80_con11_tree (U "public class Me {
  {
    for (Integer i = 0;; i++) {
      System.debug(i);
    }
  }
}
").
Proof. apply run_test_ok. vm_compute. reflexivity. Qed.

(* tests/prettier80/con12.in *)
Definition prettier80_con12_source : ustr := U "public class Me {
    {
        for( Integer i=0  ; i < 3  ;)
        {
            System.debug(i);
            }
        
    }
}
".
Definition prettier80_con12_tree : span := (B "parser_output" 1 0 132 0 9 [(B "class_declaration" 2 0 131 0 8 [(B "modifiers" 3 0 6 0 0 [(B "modifier" 4 0 6 0 0 [(B "public" 5 0 6 0 0 [(A "public" 6 0 6 0 0 [])])])]); (A "class" 7 7 12 0 0 []); (B "identifier" 8 13 15 0 0 [] # "name"); (B "class_body" 9 16 131 0 8 [(A "{" 10 16 17 0 0 []); (B "block" 11 22 129 1 7 [(A "{" 12 22 23 1 1 []); (B "for_statement" 13 32 114 2 5 [(A "for" 14 32 35 2 2 []); (A "(" 15 35 36 2 2 []); (B "local_variable_declaration" 16 37 51 2 2 [(B "type_identifier" 17 37 44 2 2 [] # "type"); (B "variable_declarator" 18 45 48 2 2 [(B "identifier" 19 45 46 2 2 [] # "name"); (B "assignment_operator" 20 46 47 2 2 [(A "=" 21 46 47 2 2 [])]); (B "int" 22 47 48 2 2 [] # "value")] # "declarator"); (A ";" 23 50 51 2 2 [])] # "init"); (B "binary_expression" 24 52 57 2 2 [(B "identifier" 25 52 53 2 2 [] # "left"); (A "<" 26 54 55 2 2 [] # "operator"); (B "int" 27 56 57 2 2 [] # "right")] # "condition"); (A ";" 28 59 60 2 2 []); (A ")" 29 60 61 2 2 []); (B "block" 30 70 114 3 5 [(A "{" 31 70 71 3 3 []); (B "expression_statement" 32 84 100 4 4 [(B "method_invocation" 33 84 99 4 4 [(B "identifier" 34 84 90 4 4 [] # "object"); (A "." 35 90 91 4 4 []); (B "identifier" 36 91 96 4 4 [] # "name"); (B "argument_list" 37 96 99 4 4 [(A "(" 38 96 97 4 4 []); (B "identifier" 39 97 98 4 4 []); (A ")" 40 98 99 4 4 [])] # "arguments")]); (A ";" 41 99 100 4 4 [])]); (A "}" 42 113 114 5 5 [])] # "body")]); (A "}" 43 128 129 7 7 [])]); (A "}" 44 130 131 8 8 [])] # "body")])]).
Example prettier80_con12 : as_expected prettier80_con12_source prettier80_con12_tree (U "public class Me {
  {
    for (Integer i = 0; i < 3;) {
      System.debug(i);
    }
  }
}
").
Proof. apply run_test_ok. vm_compute. reflexivity. Qed.

(* tests/prettier80/con13.in *)
Definition prettier80_con13_source : ustr := U "public class Me {
    {
        for( Integer i=0  , k = 1 ; i < 3  ; i++  )
        {
            System.debug(i);
            }
        
    }
}
".
Definition prettier80_con13_tree : span := (B "parser_output" 1 0 146 0 9 [(B "class_declaration" 2 0 145 0 8 [(B "modifiers" 3 0 6 0 0 [(B "modifier" 4 0 6 0 0 [(B "public" 5 0 6 0 0 [(A "public" 6 0 6 0 0 [])])])]); (A "class" 7 7 12 0 0 []); (B "identifier" 8 13 15 0 0 [] # "name"); (B "class_body" 9 16 145 0 8 [(A "{" 10 16 17 0 0 []); (B "block" 11 22 143 1 7 [(A "{" 12 22 23 1 1 []); (B "for_statement" 13 32 128 2 5 [(A "for" 14 32 35 2 2 []); (A "(" 15 35 36 2 2 []); (B "local_variable_declaration" 16 37 59 2 2 [(B "type_identifier" 17 37 44 2 2 [] # "type"); (B "variable_declarator" 18 45 48 2 2 [(B "identifier" 19 45 46 2 2 [] # "name"); (B "assignment_operator" 20 46 47 2 2 [(A "=" 21 46 47 2 2 [])]); (B "int" 22 47 48 2 2 [] # "value")] # "declarator"); (A "," 23 50 51 2 2 []); (B "variable_declarator" 24 52 57 2 2 [(B "identifier" 25 52 53 2 2 [] # "name"); (B "assignment_operator" 26 54 55 2 2 [(A "=" 27 54 55 2 2 [])]); (B "int" 28 56 57 2 2 [] # "value")] # "declarator"); (A ";" 29 58 59 2 2 [])] # "init"); (B "binary_expression" 30 60 65 2 2 [(B "identifier" 31 60 61 2 2 [] # "left"); (A "<" 32 62 63 2 2 [] # "operator"); (B "int" 33 64 65 2 2 [] # "right")] # "condition"); (A ";" 34 67 68 2 2 []); (B "update_expression" 35 69 72 2 2 [(B "identifier" 36 69 70 2 2 [] # "operand"); (A "++" 37 70 72 2 2 [] # "operator")] # "update"); (A ")" 38 74 75 2 2 []); (B "block" 39 84 128 3 5 [(A "{" 40 84 85 3 3 []); (B "expression_statement" 41 98 114 4 4 [(B "method_invocation" 42 98 113 4 4 [(B "identifier" 43 98 104 4 4 [] # "object"); (A "." 44 104 105 4 4 []); (B "identifier" 45 105 110 4 4 [] # "name"); (B "argument_list" 46 110 113 4 4 [(A "(" 47 110 111 4 4 []); (B "identifier" 48 111 112 4 4 []); (A ")" 49 112 113 4 4 [])] # "arguments")]); (A ";" 50 113 114 4 4 [])]); (A "}" 51 127 128 5 5 [])] # "body")]); (A "}" 52 142 143 7 7 [])]); (A "}" 53 144 145 8 8 [])] # "body")])]).
Example prettier80_con13 : as_expected prettier80_con13_source prettier80_con13_tree (U "public class Me {
  {
    for (Integer i = 0, k = 1; i < 3; i++) {
      System.debug(i);
    }
  }
}
").
Proof. apply run_test_ok. vm_compute. reflexivity. Qed.

(* tests/prettier80/con15.in *)
Definition prettier80_con15_source : ustr := U "public class Me {
    {
        List<Account> accs = new List<Account>();
        for (
        Account a    :        accs
           )
    {
            System.debug(a);
        }
    }
}
".
Definition prettier80_con15_tree : span := (B "parser_output" 1 0 189 0 11 [(B "class_declaration" 2 0 188 0 10 [(B "modifiers" 3 0 6 0 0 [(B "modifier" 4 0 6 0 0 [(B "public" 5 0 6 0 0 [(A "public" 6 0 6 0 0 [])])])]); (A "class" 7 7 12 0 0 []); (B "identifier" 8 13 15 0 0 [] # "name"); (B "class_body" 9 16 188 0 10 [(A "{" 10 16 17 0 0 []); (B "block" 11 22 186 1 9 [(A "{" 12 22 23 1 1 []); (B "local_variable_declaration" 13 32 73 2 2 [(B "generic_type" 14 32 45 2 2 [(B "type_identifier" 15 32 36 2 2 []); (B "type_arguments" 16 36 45 2 2 [(A "<" 17 36 37 2 2 []); (B "type_identifier" 18 37 44 2 2 []); (A ">" 19 44 45 2 2 [])])] # "type"); (B "variable_declarator" 20 46 72 2 2 [(B "identifier" 21 46 50 2 2 [] # "name"); (B "assignment_operator" 22 51 52 2 2 [(A "=" 23 51 52 2 2 [])]); (B "object_creation_expression" 24 53 72 2 2 [(A "new" 25 53 56 2 2 []); (B "generic_type" 26 57 70 2 2 [(B "type_identifier" 27 57 61 2 2 []); (B "type_arguments" 28 61 70 2 2 [(A "<" 29 61 62 2 2 []); (B "type_identifier" 30 62 69 2 2 []); (A ">" 31 69 70 2 2 [])])] # "type"); (B "argument_list" 32 70 72 2 2 [(A "(" 33 70 71 2 2 []); (A ")" 34 71 72 2 2 [])] # "arguments")] # "value")] # "declarator"); (A ";" 35 72 73 2 2 [])]); (B "enhanced_for_statement" 36 82 180 3 8 [(A "for" 37 82 85 3 3 []); (A "(" 38 86 87 3 3 []); (B "type_identifier" 39 96 103 4 4 [] # "type"); (B "identifier" 40 104 105 4 4 [] # "name"); (A ":" 41 109 110 4 4 []); (B "identifier" 42 118 122 4 4 [] # "value"); (A ")" 43 134 135 5 5 []); (B "block" 44 140 180 6 8 [(A "{" 45 140 141 6 6 []); (B "expression_statement" 46 154 170 7 7 [(B "method_invocation" 47 154 169 7 7 [(B "identifier" 48 154 160 7 7 [] # "object"); (A "." 49 160 161 7 7 []); (B "identifier" 50 161 166 7 7 [] # "name"); (B "argument_list" 51 166 169 7 7 [(A "(" 52 166 167 7 7 []); (B "identifier" 53 167 168 7 7 []); (A ")" 54 168 169 7 7 [])] # "arguments")]); (A ";" 55 169 170 7 7 [])]); (A "}" 56 179 180 8 8 [])] # "body")]); (A "}" 57 185 186 9 9 [])]); (A "}" 58 187 188 10 10 [])] # "body")])]).
Example prettier80_con15 : as_expected prettier80_con15_source prettier80_con15_tree (U "public class Me {
  {
    List<Account> accs = new List<Account>();
    for (Account a : accs) {
      System.debug(a);
    }
  }
}
").
Proof. apply run_test_ok. vm_compute. reflexivity. Qed.

(* tests/prettier80/con16.in *)
Definition prettier80_con16_source : ustr := U "public class Me {
  {

System.runAs  ( 
        new User  (  Id 
        =  
UserInfo.getUserId()  ) ) {  
}
  }
}
".
Definition prettier80_con16_tree : span := (B "parser_output" 1 0 115 0 10 [(B "class_declaration" 2 0 114 0 9 [(B "modifiers" 3 0 6 0 0 [(B "modifier" 4 0 6 0 0 [(B "public" 5 0 6 0 0 [(A "public" 6 0 6 0 0 [])])])]); (A "class" 7 7 12 0 0 []); (B "identifier" 8 13 15 0 0 [] # "name"); (B "class_body" 9 16 114 0 9 [(A "{" 10 16 17 0 0 []); (B "block" 11 20 112 1 8 [(A "{" 12 20 21 1 1 []); (B "run_as_statement" 13 23 108 3 7 [(A "System.runAs" 14 23 35 3 3 []); (B "parenthesized_expression" 15 37 102 3 6 [(A "(" 16 37 38 3 3 []); (B "object_creation_expression" 17 48 100 4 6 [(A "new" 18 48 51 4 4 []); (B "type_identifier" 19 52 56 4 4 [] # "type"); (B "argument_list" 20 58 100 4 6 [(A "(" 21 58 59 4 4 []); (B "assignment_expression" 22 61 97 4 6 [(B "identifier" 23 61 63 4 4 [] # "left"); (B "assignment_operator" 24 73 74 5 5 [(A "=" 25 73 74 5 5 [])] # "operator"); (B "method_invocation" 26 77 97 6 6 [(B "identifier" 27 77 85 6 6 [] # "object"); (A "." 28 85 86 6 6 []); (B "identifier" 29 86 95 6 6 [] # "name"); (B "argument_list" 30 95 97 6 6 [(A "(" 31 95 96 6 6 []); (A ")" 32 96 97 6 6 [])] # "arguments")] # "right")]); (A ")" 33 99 100 6 6 [])] # "arguments")]); (A ")" 34 101 102 6 6 [])] # "user"); (B "block" 35 103 108 6 7 [(A "{" 36 103 104 6 6 []); (A "}" 37 107 108 7 7 [])])]); (A "}" 38 111 112 8 8 [])]); (A "}" 39 113 114 9 9 [])] # "body")])]).
Example prettier80_con16 : as_expected prettier80_con16_source prettier80_con16_tree (U "public class Me {
  {
    System.runAs(new User(Id = UserInfo.getUserId())) {
    }
  }
}
").
Proof. apply run_test_ok. vm_compute. reflexivity. Qed.

(* tests/prettier80/con7.in *)
Definition prettier80_con7_source : ustr := U "public class Me {
  {
      do 
        {
    Integer i  
     = 1
     ;
          } 
          while   (true) ;
  }
}
".
Definition prettier80_con7_tree : span := (B "parser_output" 1 0 120 0 11 [(B "class_declaration" 2 0 119 0 10 [(B "modifiers" 3 0 6 0 0 [(B "modifier" 4 0 6 0 0 [(B "public" 5 0 6 0 0 [(A "public" 6 0 6 0 0 [])])])]); (A "class" 7 7 12 0 0 []); (B "identifier" 8 13 15 0 0 [] # "name"); (B "class_body" 9 16 119 0 10 [(A "{" 10 16 17 0 0 []); (B "block" 11 20 117 1 9 [(A "{" 12 20 21 1 1 []); (B "do_statement" 13 28 113 2 8 [(A "do" 14 28 30 2 2 []); (B "block" 15 40 85 3 7 [(A "{" 16 40 41 3 3 []); (B "local_variable_declaration" 17 46 73 4 6 [(B "type_identifier" 18 46 53 4 4 [] # "type"); (B "variable_declarator" 19 54 66 4 5 [(B "identifier" 20 54 55 4 4 [] # "name"); (B "assignment_operator" 21 63 64 5 5 [(A "=" 22 63 64 5 5 [])]); (B "int" 23 65 66 5 5 [] # "value")] # "declarator"); (A ";" 24 72 73 6 6 [])]); (A "}" 25 84 85 7 7 [])] # "body"); (A "while" 26 97 102 8 8 []); (B "parenthesized_expression" 27 105 111 8 8 [(A "(" 28 105 106 8 8 []); (B "boolean" 29 106 110 8 8 [(A "true" 30 106 110 8 8 [])]); (A ")" 31 110 111 8 8 [])] # "condition"); (A ";" 32 112 113 8 8 [])]); (A "}" 33 116 117 9 9 [])]); (A "}" 34 118 119 10 10 [])] # "body")])]).
Example prettier80_con7 : as_expected prettier80_con7_source prettier80_con7_tree (U "public class Me {
  {
    do {
      Integer i = 1;
    } while (true);
  }
}
").
Proof. apply run_test_ok. vm_compute. reflexivity. Qed.

(* tests/prettier80/con8.in *)
Definition prettier80_con8_source : ustr := U "public class Me {
    {

        while 
        (true)   {
              Integer i = 1;
                    }
  }
}
".
Definition prettier80_con8_tree : span := (B "parser_output" 1 0 116 0 9 [(B "class_declaration" 2 0 115 0 8 [(B "modifiers" 3 0 6 0 0 [(B "modifier" 4 0 6 0 0 [(B "public" 5 0 6 0 0 [(A "public" 6 0 6 0 0 [])])])]); (A "class" 7 7 12 0 0 []); (B "identifier" 8 13 15 0 0 [] # "name"); (B "class_body" 9 16 115 0 8 [(A "{" 10 16 17 0 0 []); (B "block" 11 22 113 1 7 [(A "{" 12 22 23 1 1 []); (B "while_statement" 13 33 109 3 6 [(A "while" 14 33 38 3 3 []); (B "parenthesized_expression" 15 48 54 4 4 [(A "(" 16 48 49 4 4 []); (B "boolean" 17 49 53 4 4 [(A "true" 18 49 53 4 4 [])]); (A ")" 19 53 54 4 4 [])] # "condition"); (B "block" 20 57 109 4 6 [(A "{" 21 57 58 4 4 []); (B "local_variable_declaration" 22 73 87 5 5 [(B "type_identifier" 23 73 80 5 5 [] # "type"); (B "variable_declarator" 24 81 86 5 5 [(B "identifier" 25 81 82 5 5 [] # "name"); (B "assignment_operator" 26 83 84 5 5 [(A "=" 27 83 84 5 5 [])]); (B "int" 28 85 86 5 5 [] # "value")] # "declarator"); (A ";" 29 86 87 5 5 [])]); (A "}" 30 108 109 6 6 [])] # "body")]); (A "}" 31 112 113 7 7 [])]); (A "}" 32 114 115 8 8 [])] # "body")])]).
Example prettier80_con8 : as_expected prettier80_con8_source prettier80_con8_tree (U "public class Me {
  {
    while (true) {
      Integer i = 1;
    }
  }
}
").
Proof. apply run_test_ok. vm_compute. reflexivity. Qed.

(* tests/prettier80/con9.in *)
Definition prettier80_con9_source : ustr := U "public class Me {
    {
          for (        Integer i = 0
          ; 

          i < 3;
        i++        ){
        System.debug(i);

        }
    }
}
".
Definition prettier80_con9_tree : span := (B "parser_output" 1 0 158 0 12 [(B "class_declaration" 2 0 157 0 11 [(B "modifiers" 3 0 6 0 0 [(B "modifier" 4 0 6 0 0 [(B "public" 5 0 6 0 0 [(A "public" 6 0 6 0 0 [])])])]); (A "class" 7 7 12 0 0 []); (B "identifier" 8 13 15 0 0 [] # "name"); (B "class_body" 9 16 157 0 11 [(A "{" 10 16 17 0 0 []); (B "block" 11 22 155 1 10 [(A "{" 12 22 23 1 1 []); (B "for_statement" 13 34 149 2 9 [(A "for" 14 34 37 2 2 []); (A "(" 15 38 39 2 2 []); (B "local_variable_declaration" 16 47 72 2 3 [(B "type_identifier" 17 47 54 2 2 [] # "type"); (B "variable_declarator" 18 55 60 2 2 [(B "identifier" 19 55 56 2 2 [] # "name"); (B "assignment_operator" 20 57 58 2 2 [(A "=" 21 57 58 2 2 [])]); (B "int" 22 59 60 2 2 [] # "value")] # "declarator"); (A ";" 23 71 72 3 3 [])] # "init"); (B "binary_expression" 24 85 90 5 5 [(B "identifier" 25 85 86 5 5 [] # "left"); (A "<" 26 87 88 5 5 [] # "operator"); (B "int" 27 89 90 5 5 [] # "right")] # "condition"); (A ";" 28 90 91 5 5 []); (B "update_expression" 29 100 103 6 6 [(B "identifier" 30 100 101 6 6 [] # "operand"); (A "++" 31 101 103 6 6 [] # "operator")] # "update"); (A ")" 32 111 112 6 6 []); (B "block" 33 112 149 6 9 [(A "{" 34 112 113 6 6 []); (B "expression_statement" 35 122 138 7 7 [(B "method_invocation" 36 122 137 7 7 [(B "identifier" 37 122 128 7 7 [] # "object"); (A "." 38 128 129 7 7 []); (B "identifier" 39 129 134 7 7 [] # "name"); (B "argument_list" 40 134 137 7 7 [(A "(" 41 134 135 7 7 []); (B "identifier" 42 135 136 7 7 []); (A ")" 43 136 137 7 7 [])] # "arguments")]); (A ";" 44 137 138 7 7 [])]); (A "}" 45 148 149 9 9 [])] # "body")]); (A "}" 46 154 155 10 10 [])]); (A "}" 47 156 157 11 11 [])] # "body")])]).
Example prettier80_con9 : as_expected prettier80_con9_source prettier80_con9_tree (U "public class Me {
  {
    for (Integer i = 0; i < 3; i++) {
      System.debug(i);
    }
  }
}
").
Proof. apply run_test_ok. vm_compute. reflexivity. Qed.

(* tests/prettier80/cons2.in *)
Definition prettier80_cons2_source : ustr := U "public class Subclass extends Superclass {
    public Subclass () {
      super  (
          'Madam', 'Brenda',  
                        'Clapentrap'
        )
    ;
  }
}
".
Definition prettier80_cons2_tree : span := (B "parser_output" 1 0 173 0 9 [(B "class_declaration" 2 0 172 0 8 [(B "modifiers" 3 0 6 0 0 [(B "modifier" 4 0 6 0 0 [(B "public" 5 0 6 0 0 [(A "public" 6 0 6 0 0 [])])])]); (A "class" 7 7 12 0 0 []); (B "identifier" 8 13 21 0 0 [] # "name"); (B "superclass" 9 22 40 0 0 [(A "extends" 10 22 29 0 0 []); (B "type_identifier" 11 30 40 0 0 [])]); (B "class_body" 12 41 172 0 8 [(A "{" 13 41 42 0 0 []); (B "constructor_declaration" 14 47 170 1 7 [(B "modifiers" 15 47 53 1 1 [(B "modifier" 16 47 53 1 1 [(B "public" 17 47 53 1 1 [(A "public" 18 47 53 1 1 [])])])]); (B "identifier" 19 54 62 1 1 [] # "name"); (B "formal_parameters" 20 63 65 1 1 [(A "(" 21 63 64 1 1 []); (A ")" 22 64 65 1 1 [])] # "parameters"); (B "constructor_body" 23 66 170 1 7 [(A "{" 24 66 67 1 1 []); (B "explicit_constructor_invocation" 25 74 166 2 6 [(B "super" 26 74 79 2 2 [] # "constructor"); (B "argument_list" 27 81 160 2 5 [(A "(" 28 81 82 2 2 []); (B "string_literal" 29 93 100 3 3 []); (A "," 30 100 101 3 3 []); (B "string_literal" 31 102 110 3 3 []); (A "," 32 110 111 3 3 []); (B "string_literal" 33 138 150 4 4 []); (A ")" 34 159 160 5 5 [])] # "arguments"); (A ";" 35 165 166 6 6 [])]); (A "}" 36 169 170 7 7 [])] # "body")]); (A "}" 37 171 172 8 8 [])] # "body")])]).
Example prettier80_cons2 : as_expected prettier80_cons2_source prettier80_cons2_tree (U "public class Subclass extends Superclass {
  public Subclass() {
    super('Madam', 'Brenda', 'Clapentrap');
  }
}
").
Proof. apply run_test_ok. vm_compute. reflexivity. Qed.

(* tests/prettier80/constructor1.in *)
Definition prettier80_constructor1_source : ustr := U "public class TestObject2 {
  private static final Integer DEFAULT_SIZE = 10;
  Integer size;
  public TestObject2() {
    this (    DEFAULT_SIZE 

    )
    ;
  }
  public 
  TestObject2
    (  Integer ObjectSize  ) {
    size = ObjectSize;
  }
}
".
Definition prettier80_constructor1_tree : span := (B "parser_output" 1 0 247 0 15 [(B "class_declaration" 2 0 246 0 14 [(B "modifiers" 3 0 6 0 0 [(B "modifier" 4 0 6 0 0 [(B "public" 5 0 6 0 0 [(A "public" 6 0 6 0 0 [])])])]); (A "class" 7 7 12 0 0 []); (B "identifier" 8 13 24 0 0 [] # "name"); (B "class_body" 9 25 246 0 14 [(A "{" 10 25 26 0 0 []); (B "field_declaration" 11 29 76 1 1 [(B "modifiers" 12 29 49 1 1 [(B "modifier" 13 29 36 1 1 [(B "private" 14 29 36 1 1 [(A "private" 15 29 36 1 1 [])])]); (B "modifier" 16 37 43 1 1 [(B "static" 17 37 43 1 1 [(A "static" 18 37 43 1 1 [])])]); (B "modifier" 19 44 49 1 1 [(B "final" 20 44 49 1 1 [(A "final" 21 44 49 1 1 [])])])]); (B "type_identifier" 22 50 57 1 1 [] # "type"); (B "variable_declarator" 23 58 75 1 1 [(B "identifier" 24 58 70 1 1 [] # "name"); (B "assignment_operator" 25 71 72 1 1 [(A "=" 26 71 72 1 1 [])]); (B "int" 27 73 75 1 1 [] # "value")] # "declarator"); (A ";" 28 75 76 1 1 [])]); (B "field_declaration" 29 79 92 2 2 [(B "type_identifier" 30 79 86 2 2 [] # "type"); (B "variable_declarator" 31 87 91 2 2 [(B "identifier" 32 87 91 2 2 [] # "name")] # "declarator"); (A ";" 33 91 92 2 2 [])]); (B "constructor_declaration" 34 95 162 3 8 [(B "modifiers" 35 95 101 3 3 [(B "modifier" 36 95 101 3 3 [(B "public" 37 95 101 3 3 [(A "public" 38 95 101 3 3 [])])])]); (B "identifier" 39 102 113 3 3 [] # "name"); (B "formal_parameters" 40 113 115 3 3 [(A "(" 41 113 114 3 3 []); (A ")" 42 114 115 3 3 [])] # "parameters"); (B "constructor_body" 43 116 162 3 8 [(A "{" 44 116 117 3 3 []); (B "explicit_constructor_invocation" 45 122 158 4 7 [(B "this" 46 122 126 4 4 [] # "constructor"); (B "argument_list" 47 127 152 4 6 [(A "(" 48 127 128 4 4 []); (B "identifier" 49 132 144 4 4 []); (A ")" 50 151 152 6 6 [])] # "arguments"); (A ";" 51 157 158 7 7 [])]); (A "}" 52 161 162 8 8 [])] # "body")]); (B "constructor_declaration" 53 165 244 9 13 [(B "modifiers" 54 165 171 9 9 [(B "modifier" 55 165 171 9 9 [(B "public" 56 165 171 9 9 [(A "public" 57 165 171 9 9 [])])])]); (B "identifier" 58 175 186 10 10 [] # "name"); (B "formal_parameters" 59 191 215 11 11 [(A "(" 60 191 192 11 11 []); (B "formal_parameter" 61 194 212 11 11 [(B "type_identifier" 62 194 201 11 11 [] # "type"); (B "identifier" 63 202 212 11 11 [] # "name")]); (A ")" 64 214 215 11 11 [])] # "parameters"); (B "constructor_body" 65 216 244 11 13 [(A "{" 66 216 217 11 11 []); (B "expression_statement" 67 222 240 12 12 [(B "assignment_expression" 68 222 239 12 12 [(B "identifier" 69 222 226 12 12 [] # "left"); (B "assignment_operator" 70 227 228 12 12 [(A "=" 71 227 228 12 12 [])] # "operator"); (B "identifier" 72 229 239 12 12 [] # "right")]); (A ";" 73 239 240 12 12 [])]); (A "}" 74 243 244 13 13 [])] # "body")]); (A "}" 75 245 246 14 14 [])] # "body")])]).
Example prettier80_constructor1 : as_expected prettier80_constructor1_source prettier80_constructor1_tree (U "public class TestObject2 {
  private static final Integer DEFAULT_SIZE = 10;
  Integer size;
  public TestObject2() {
    this(DEFAULT_SIZE);
  }
  public TestObject2(Integer ObjectSize) {
    size = ObjectSize;
  }
}
").
Proof. apply run_test_ok. vm_compute. reflexivity. Qed.

(* tests/prettier80/d5.in *)
Definition prettier80_d5_source : ustr := U "public class Me {
  {
       upsert 
      contacts.values(  )   Schema.Contact.External_Id__c  ;
    }
}
".
Definition prettier80_d5_tree : span := (B "parser_output" 1 0 106 0 6 [(B "class_declaration" 2 0 105 0 5 [(B "modifiers" 3 0 6 0 0 [(B "modifier" 4 0 6 0 0 [(B "public" 5 0 6 0 0 [(A "public" 6 0 6 0 0 [])])])]); (A "class" 7 7 12 0 0 []); (B "identifier" 8 13 15 0 0 [] # "name"); (B "class_body" 9 16 105 0 5 [(A "{" 10 16 17 0 0 []); (B "block" 11 20 103 1 4 [(A "{" 12 20 21 1 1 []); (B "expression_statement" 13 29 97 2 3 [(B "dml_expression" 14 29 94 2 3 [(B "dml_type" 15 29 35 2 2 [(B "upsert" 16 29 35 2 2 [(A "upsert" 17 29 35 2 2 [])])]); (B "method_invocation" 18 43 62 3 3 [(B "identifier" 19 43 51 3 3 [] # "object"); (A "." 20 51 52 3 3 []); (B "identifier" 21 52 58 3 3 [] # "name"); (B "argument_list" 22 58 62 3 3 [(A "(" 23 58 59 3 3 []); (A ")" 24 61 62 3 3 [])] # "arguments")] # "target"); (B "scoped_type_identifier" 25 65 94 3 3 [(B "scoped_type_identifier" 26 65 79 3 3 [(B "type_identifier" 27 65 71 3 3 []); (A "." 28 71 72 3 3 []); (B "type_identifier" 29 72 79 3 3 [])]); (A "." 30 79 80 3 3 []); (B "type_identifier" 31 80 94 3 3 [])] # "upsert_key")]); (A ";" 32 96 97 3 3 [])]); (A "}" 33 102 103 4 4 [])]); (A "}" 34 104 105 5 5 [])] # "body")])]).
Example prettier80_d5 : as_expected prettier80_d5_source prettier80_d5_tree (U "public class Me {
  {
    upsert contacts.values() Schema.Contact.External_Id__c;
  }
}
").
Proof. apply run_test_ok. vm_compute. reflexivity. Qed.

(* tests/prettier80/d6.in *)
Definition prettier80_d6_source : ustr := U "public class Me {
  {
      insert   new 
      List<Account  >    {   a1  , a2  

      }
      ;
  }
}
".
Definition prettier80_d6_tree : span := (B "parser_output" 1 0 105 0 9 [(B "class_declaration" 2 0 104 0 8 [(B "modifiers" 3 0 6 0 0 [(B "modifier" 4 0 6 0 0 [(B "public" 5 0 6 0 0 [(A "public" 6 0 6 0 0 [])])])]); (A "class" 7 7 12 0 0 []); (B "identifier" 8 13 15 0 0 [] # "name"); (B "class_body" 9 16 104 0 8 [(A "{" 10 16 17 0 0 []); (B "block" 11 20 102 1 7 [(A "{" 12 20 21 1 1 []); (B "expression_statement" 13 28 98 2 6 [(B "dml_expression" 14 28 90 2 5 [(B "dml_type" 15 28 34 2 2 [(B "insert" 16 28 34 2 2 [(A "insert" 17 28 34 2 2 [])])]); (B "array_creation_expression" 18 37 90 2 5 [(A "new" 19 37 40 2 2 []); (B "generic_type" 20 48 63 3 3 [(B "type_identifier" 21 48 52 3 3 []); (B "type_arguments" 22 52 63 3 3 [(A "<" 23 52 53 3 3 []); (B "type_identifier" 24 53 60 3 3 []); (A ">" 25 62 63 3 3 [])])] # "type"); (B "array_initializer" 26 67 90 3 5 [(A "{" 27 67 68 3 3 []); (B "identifier" 28 71 73 3 3 []); (A "," 29 75 76 3 3 []); (B "identifier" 30 77 79 3 3 []); (A "}" 31 89 90 5 5 [])] # "value")] # "target")]); (A ";" 32 97 98 6 6 [])]); (A "}" 33 101 102 7 7 [])]); (A "}" 34 103 104 8 8 [])] # "body")])]).
Example prettier80_d6 : as_expected prettier80_d6_source prettier80_d6_tree (U "public class Me {
  {
    insert new List<Account>{ a1, a2 };
  }
}
").
Proof. apply run_test_ok. vm_compute. reflexivity. Qed.

(* tests/prettier80/d7.in *)
Definition prettier80_d7_source : ustr := U "public class Me {
  {
      insert accMG 
      = new Account  (  Name
      =   'matching gift company'  
    );
  }
}

".
Definition prettier80_d7_tree : span := (B "parser_output" 1 0 121 0 9 [(B "class_declaration" 2 0 119 0 7 [(B "modifiers" 3 0 6 0 0 [(B "modifier" 4 0 6 0 0 [(B "public" 5 0 6 0 0 [(A "public" 6 0 6 0 0 [])])])]); (A "class" 7 7 12 0 0 []); (B "identifier" 8 13 15 0 0 [] # "name"); (B "class_body" 9 16 119 0 7 [(A "{" 10 16 17 0 0 []); (B "block" 11 20 117 1 6 [(A "{" 12 20 21 1 1 []); (B "expression_statement" 13 28 113 2 5 [(B "dml_expression" 14 28 112 2 5 [(B "dml_type" 15 28 34 2 2 [(B "insert" 16 28 34 2 2 [(A "insert" 17 28 34 2 2 [])])]); (B "assignment_expression" 18 35 112 2 5 [(B "identifier" 19 35 40 2 2 [] # "left"); (B "assignment_operator" 20 48 49 3 3 [(A "=" 21 48 49 3 3 [])] # "operator"); (B "object_creation_expression" 22 50 112 3 5 [(A "new" 23 50 53 3 3 []); (B "type_identifier" 24 54 61 3 3 [] # "type"); (B "argument_list" 25 63 112 3 5 [(A "(" 26 63 64 3 3 []); (B "assignment_expression" 27 66 104 3 4 [(B "identifier" 28 66 70 3 3 [] # "left"); (B "assignment_operator" 29 77 78 4 4 [(A "=" 30 77 78 4 4 [])] # "operator"); (B "string_literal" 31 81 104 4 4 [] # "right")]); (A ")" 32 111 112 5 5 [])] # "arguments")] # "right")] # "target")]); (A ";" 33 112 113 5 5 [])]); (A "}" 34 116 117 6 6 [])]); (A "}" 35 118 119 7 7 [])] # "body")])]).
Example prettier80_d7 : as_expected prettier80_d7_source prettier80_d7_tree (U "public class Me {
  {
    insert accMG = new Account(Name = 'matching gift company');
  }
}
").
Proof. apply run_test_ok. vm_compute. reflexivity. Qed.

(* tests/prettier80/d8.in *)
Definition prettier80_d8_source : ustr := U "public class Me {
  {
      insert   as 
    user  a ;
  }
}
".
Definition prettier80_d8_tree : span := (B "parser_output" 1 0 61 0 6 [(B "class_declaration" 2 0 60 0 5 [(B "modifiers" 3 0 6 0 0 [(B "modifier" 4 0 6 0 0 [(B "public" 5 0 6 0 0 [(A "public" 6 0 6 0 0 [])])])]); (A "class" 7 7 12 0 0 []); (B "identifier" 8 13 15 0 0 [] # "name"); (B "class_body" 9 16 60 0 5 [(A "{" 10 16 17 0 0 []); (B "block" 11 20 58 1 4 [(A "{" 12 20 21 1 1 []); (B "expression_statement" 13 28 54 2 3 [(B "dml_expression" 14 28 52 2 3 [(B "dml_type" 15 28 34 2 2 [(B "insert" 16 28 34 2 2 [(A "insert" 17 28 34 2 2 [])])]); (B "dml_security_mode" 18 37 49 2 3 [(A "as" 19 37 39 2 2 []); (B "user" 20 45 49 3 3 [(A "user" 21 45 49 3 3 [])])]); (B "identifier" 22 51 52 3 3 [] # "target")]); (A ";" 23 53 54 3 3 [])]); (A "}" 24 57 58 4 4 [])]); (A "}" 25 59 60 5 5 [])] # "body")])]).
Example prettier80_d8 : as_expected prettier80_d8_source prettier80_d8_tree (U "public class Me {
  {
    insert as user a;
  }
}
").
Proof. apply run_test_ok. vm_compute. reflexivity. Qed.

(* tests/prettier80/d9.in *)
Definition prettier80_d9_source : ustr := U "public class Me {
  {
      insert    as 
      SySteM a 
      ;
  }
}
".
Definition prettier80_d9_tree : span := (B "parser_output" 1 0 72 0 7 [(B "class_declaration" 2 0 71 0 6 [(B "modifiers" 3 0 6 0 0 [(B "modifier" 4 0 6 0 0 [(B "public" 5 0 6 0 0 [(A "public" 6 0 6 0 0 [])])])]); (A "class" 7 7 12 0 0 []); (B "identifier" 8 13 15 0 0 [] # "name"); (B "class_body" 9 16 71 0 6 [(A "{" 10 16 17 0 0 []); (B "block" 11 20 69 1 5 [(A "{" 12 20 21 1 1 []); (B "expression_statement" 13 28 65 2 4 [(B "dml_expression" 14 28 56 2 3 [(B "dml_type" 15 28 34 2 2 [(B "insert" 16 28 34 2 2 [(A "insert" 17 28 34 2 2 [])])]); (B "dml_security_mode" 18 38 54 2 3 [(A "as" 19 38 40 2 2 []); (B "system" 20 48 54 3 3 [(A "SySteM" 21 48 54 3 3 [])])]); (B "identifier" 22 55 56 3 3 [] # "target")]); (A ";" 23 64 65 4 4 [])]); (A "}" 24 68 69 5 5 [])]); (A "}" 25 70 71 6 6 [])] # "body")])]).
Example prettier80_d9 : as_expected prettier80_d9_source prettier80_d9_tree (U "public class Me {
  {
    insert as SySteM a;
  }
}
").
Proof. apply run_test_ok. vm_compute. reflexivity. Qed.

(* tests/prettier80/dml1.in *)
Definition prettier80_dml1_source : ustr := U "public class Me {
     {
      upsert    a ;
 }
}
".
Definition prettier80_dml1_tree : span := (B "parser_output" 1 0 50 0 5 [(B "class_declaration" 2 0 49 0 4 [(B "modifiers" 3 0 6 0 0 [(B "modifier" 4 0 6 0 0 [(B "public" 5 0 6 0 0 [(A "public" 6 0 6 0 0 [])])])]); (A "class" 7 7 12 0 0 []); (B "identifier" 8 13 15 0 0 [] # "name"); (B "class_body" 9 16 49 0 4 [(A "{" 10 16 17 0 0 []); (B "block" 11 23 47 1 3 [(A "{" 12 23 24 1 1 []); (B "expression_statement" 13 31 44 2 2 [(B "dml_expression" 14 31 42 2 2 [(B "dml_type" 15 31 37 2 2 [(B "upsert" 16 31 37 2 2 [(A "upsert" 17 31 37 2 2 [])])]); (B "identifier" 18 41 42 2 2 [] # "target")]); (A ";" 19 43 44 2 2 [])]); (A "}" 20 46 47 3 3 [])]); (A "}" 21 48 49 4 4 [])] # "body")])]).
Example prettier80_dml1 : as_expected prettier80_dml1_source prettier80_dml1_tree (U "public class Me {
  {
    upsert a;
  }
}
").
Proof. apply run_test_ok. vm_compute. reflexivity. Qed.

(* tests/prettier80/dml2.in *)
Definition prettier80_dml2_source : ustr := U "public class Me {
   {
      upsert a 
        Account.External_Id__c
        ;
   }
}
".
Definition prettier80_dml2_tree : span := (B "parser_output" 1 0 87 0 7 [(B "class_declaration" 2 0 86 0 6 [(B "modifiers" 3 0 6 0 0 [(B "modifier" 4 0 6 0 0 [(B "public" 5 0 6 0 0 [(A "public" 6 0 6 0 0 [])])])]); (A "class" 7 7 12 0 0 []); (B "identifier" 8 13 15 0 0 [] # "name"); (B "class_body" 9 16 86 0 6 [(A "{" 10 16 17 0 0 []); (B "block" 11 21 84 1 5 [(A "{" 12 21 22 1 1 []); (B "expression_statement" 13 29 79 2 4 [(B "dml_expression" 14 29 69 2 3 [(B "dml_type" 15 29 35 2 2 [(B "upsert" 16 29 35 2 2 [(A "upsert" 17 29 35 2 2 [])])]); (B "identifier" 18 36 37 2 2 [] # "target"); (B "scoped_type_identifier" 19 47 69 3 3 [(B "type_identifier" 20 47 54 3 3 []); (A "." 21 54 55 3 3 []); (B "type_identifier" 22 55 69 3 3 [])] # "upsert_key")]); (A ";" 23 78 79 4 4 [])]); (A "}" 24 83 84 5 5 [])]); (A "}" 25 85 86 6 6 [])] # "body")])]).
Example prettier80_dml2 : as_expected prettier80_dml2_source prettier80_dml2_tree (U "public class Me {
  {
    upsert a Account.External_Id__c;
  }
}
").
Proof. apply run_test_ok. vm_compute. reflexivity. Qed.

(* tests/prettier80/dml3.in *)
Definition prettier80_dml3_source : ustr := U "public class Me {
 {
              insert a;
     }
}
".
Definition prettier80_dml3_tree : span := (B "parser_output" 1 0 54 0 5 [(B "class_declaration" 2 0 53 0 4 [(B "modifiers" 3 0 6 0 0 [(B "modifier" 4 0 6 0 0 [(B "public" 5 0 6 0 0 [(A "public" 6 0 6 0 0 [])])])]); (A "class" 7 7 12 0 0 []); (B "identifier" 8 13 15 0 0 [] # "name"); (B "class_body" 9 16 53 0 4 [(A "{" 10 16 17 0 0 []); (B "block" 11 19 51 1 3 [(A "{" 12 19 20 1 1 []); (B "expression_statement" 13 35 44 2 2 [(B "dml_expression" 14 35 43 2 2 [(B "dml_type" 15 35 41 2 2 [(B "insert" 16 35 41 2 2 [(A "insert" 17 35 41 2 2 [])])]); (B "identifier" 18 42 43 2 2 [] # "target")]); (A ";" 19 43 44 2 2 [])]); (A "}" 20 50 51 3 3 [])]); (A "}" 21 52 53 4 4 [])] # "body")])]).
Example prettier80_dml3 : as_expected prettier80_dml3_source prettier80_dml3_tree (U "public class Me {
  {
    insert a;
  }
}
").
Proof. apply run_test_ok. vm_compute. reflexivity. Qed.

(* tests/prettier80/dml4.in *)
Definition prettier80_dml4_source : ustr := U "public class Me {
  {
      upsert    as 
          system a  ;

  }
}

".
Definition prettier80_dml4_tree : span := (B "parser_output" 1 0 72 0 8 [(B "class_declaration" 2 0 70 0 6 [(B "modifiers" 3 0 6 0 0 [(B "modifier" 4 0 6 0 0 [(B "public" 5 0 6 0 0 [(A "public" 6 0 6 0 0 [])])])]); (A "class" 7 7 12 0 0 []); (B "identifier" 8 13 15 0 0 [] # "name"); (B "class_body" 9 16 70 0 6 [(A "{" 10 16 17 0 0 []); (B "block" 11 20 68 1 5 [(A "{" 12 20 21 1 1 []); (B "expression_statement" 13 28 63 2 3 [(B "dml_expression" 14 28 60 2 3 [(B "dml_type" 15 28 34 2 2 [(B "upsert" 16 28 34 2 2 [(A "upsert" 17 28 34 2 2 [])])]); (B "dml_security_mode" 18 38 58 2 3 [(A "as" 19 38 40 2 2 []); (B "system" 20 52 58 3 3 [(A "system" 21 52 58 3 3 [])])]); (B "identifier" 22 59 60 3 3 [] # "target")]); (A ";" 23 62 63 3 3 [])]); (A "}" 24 67 68 5 5 [])]); (A "}" 25 69 70 6 6 [])] # "body")])]).
Example prettier80_dml4 : as_expected prettier80_dml4_source prettier80_dml4_tree (U "public class Me {
  {
    upsert as system a;
  }
}
").
Proof. apply run_test_ok. vm_compute. reflexivity. Qed.

(* tests/prettier80/dml5.in *)
Definition prettier80_dml5_source : ustr := U "public class Me {
  {

      merge    as 
          USER a 
          a2
          ;


  }
}

".
Definition prettier80_dml5_tree : span := (B "parser_output" 1 0 94 0 12 [(B "class_declaration" 2 0 92 0 10 [(B "modifiers" 3 0 6 0 0 [(B "modifier" 4 0 6 0 0 [(B "public" 5 0 6 0 0 [(A "public" 6 0 6 0 0 [])])])]); (A "class" 7 7 12 0 0 []); (B "identifier" 8 13 15 0 0 [] # "name"); (B "class_body" 9 16 92 0 10 [(A "{" 10 16 17 0 0 []); (B "block" 11 20 90 1 9 [(A "{" 12 20 21 1 1 []); (B "expression_statement" 13 29 84 3 6 [(B "dml_expression" 14 29 72 3 5 [(B "dml_type" 15 29 34 3 3 [(B "merge" 16 29 34 3 3 [(A "merge" 17 29 34 3 3 [])])]); (B "dml_security_mode" 18 38 56 3 4 [(A "as" 19 38 40 3 3 []); (B "user" 20 52 56 4 4 [(A "USER" 21 52 56 4 4 [])])]); (B "identifier" 22 57 58 4 4 [] # "target"); (B "identifier" 23 70 72 5 5 [] # "merge_with")]); (A ";" 24 83 84 6 6 [])]); (A "}" 25 89 90 9 9 [])]); (A "}" 26 91 92 10 10 [])] # "body")])]).
Example prettier80_dml5 : as_expected prettier80_dml5_source prettier80_dml5_tree (U "public class Me {
  {
    merge as USER a a2;
  }
}
").
Proof. apply run_test_ok. vm_compute. reflexivity. Qed.

(* tests/prettier80/dml6.in *)
Definition prettier80_dml6_source : ustr := U "public class Me {
   {
      merge a  b    ;
 }
}

".
Definition prettier80_dml6_tree : span := (B "parser_output" 1 0 51 0 6 [(B "class_declaration" 2 0 49 0 4 [(B "modifiers" 3 0 6 0 0 [(B "modifier" 4 0 6 0 0 [(B "public" 5 0 6 0 0 [(A "public" 6 0 6 0 0 [])])])]); (A "class" 7 7 12 0 0 []); (B "identifier" 8 13 15 0 0 [] # "name"); (B "class_body" 9 16 49 0 4 [(A "{" 10 16 17 0 0 []); (B "block" 11 21 47 1 3 [(A "{" 12 21 22 1 1 []); (B "expression_statement" 13 29 44 2 2 [(B "dml_expression" 14 29 39 2 2 [(B "dml_type" 15 29 34 2 2 [(B "merge" 16 29 34 2 2 [(A "merge" 17 29 34 2 2 [])])]); (B "identifier" 18 35 36 2 2 [] # "target"); (B "identifier" 19 38 39 2 2 [] # "merge_with")]); (A ";" 20 43 44 2 2 [])]); (A "}" 21 46 47 3 3 [])]); (A "}" 22 48 49 4 4 [])] # "body")])]).
Example prettier80_dml6 : as_expected prettier80_dml6_source prettier80_dml6_tree (U "public class Me {
  {
    merge a b;
  }
}
").
Proof. apply run_test_ok. vm_compute. reflexivity. Qed.

(* tests/prettier80/dml7.in *)
Definition prettier80_dml7_source : ustr := U "public class Me {
    {
        merge 
        accounts[0 ]    accounts  [  1  ] ;
    }
}
".
Definition prettier80_dml7_tree : span := (B "parser_output" 1 0 91 0 6 [(B "class_declaration" 2 0 90 0 5 [(B "modifiers" 3 0 6 0 0 [(B "modifier" 4 0 6 0 0 [(B "public" 5 0 6 0 0 [(A "public" 6 0 6 0 0 [])])])]); (A "class" 7 7 12 0 0 []); (B "identifier" 8 13 15 0 0 [] # "name"); (B "class_body" 9 16 90 0 5 [(A "{" 10 16 17 0 0 []); (B "block" 11 22 88 1 4 [(A "{" 12 22 23 1 1 []); (B "expression_statement" 13 32 82 2 3 [(B "dml_expression" 14 32 80 2 3 [(B "dml_type" 15 32 37 2 2 [(B "merge" 16 32 37 2 2 [(A "merge" 17 32 37 2 2 [])])]); (B "array_access" 18 47 59 3 3 [(B "identifier" 19 47 55 3 3 [] # "array"); (A "[" 20 55 56 3 3 []); (B "int" 21 56 57 3 3 [] # "index"); (A "]" 22 58 59 3 3 [])] # "target"); (B "array_access" 23 63 80 3 3 [(B "identifier" 24 63 71 3 3 [] # "array"); (A "[" 25 73 74 3 3 []); (B "int" 26 76 77 3 3 [] # "index"); (A "]" 27 79 80 3 3 [])] # "merge_with")]); (A ";" 28 81 82 3 3 [])]); (A "}" 29 87 88 4 4 [])]); (A "}" 30 89 90 5 5 [])] # "body")])]).
Example prettier80_dml7 : as_expected prettier80_dml7_source prettier80_dml7_tree (U "public class Me {
  {
    merge accounts[0] accounts[1];
  }
}
").
Proof. apply run_test_ok. vm_compute. reflexivity. Qed.

(* tests/prettier80/dml8.in *)
Definition prettier80_dml8_source : ustr := U "public class Me {
    {
        merge  masterContact 


    new    List  <Contact  > {oldContact1  , oldContact2


    };


    }
}
".
Definition prettier80_dml8_tree : span := (B "parser_output" 1 0 132 0 13 [(B "class_declaration" 2 0 131 0 12 [(B "modifiers" 3 0 6 0 0 [(B "modifier" 4 0 6 0 0 [(B "public" 5 0 6 0 0 [(A "public" 6 0 6 0 0 [])])])]); (A "class" 7 7 12 0 0 []); (B "identifier" 8 13 15 0 0 [] # "name"); (B "class_body" 9 16 131 0 12 [(A "{" 10 16 17 0 0 []); (B "block" 11 22 129 1 11 [(A "{" 12 22 23 1 1 []); (B "expression_statement" 13 32 121 2 8 [(B "dml_expression" 14 32 120 2 8 [(B "dml_type" 15 32 37 2 2 [(B "merge" 16 32 37 2 2 [(A "merge" 17 32 37 2 2 [])])]); (B "identifier" 18 39 52 2 2 [] # "target"); (B "array_creation_expression" 19 60 120 5 8 [(A "new" 20 60 63 5 5 []); (B "generic_type" 21 67 84 5 5 [(B "type_identifier" 22 67 71 5 5 []); (B "type_arguments" 23 73 84 5 5 [(A "<" 24 73 74 5 5 []); (B "type_identifier" 25 74 81 5 5 []); (A ">" 26 83 84 5 5 [])])] # "type"); (B "array_initializer" 27 85 120 5 8 [(A "{" 28 85 86 5 5 []); (B "identifier" 29 86 97 5 5 []); (A "," 30 99 100 5 5 []); (B "identifier" 31 101 112 5 5 []); (A "}" 32 119 120 8 8 [])] # "value")] # "merge_with")]); (A ";" 33 120 121 8 8 [])]); (A "}" 34 128 129 11 11 [])]); (A "}" 35 130 131 12 12 [])] # "body")])]).
Example prettier80_dml8 : as_expected prettier80_dml8_source prettier80_dml8_tree (U "public class Me {
  {
    merge masterContact new List<Contact>{ oldContact1, oldContact2 };
  }
}
").
Proof. apply run_test_ok. vm_compute. reflexivity. Qed.

(* tests/prettier80/empty_block.in *)
Definition prettier80_empty_block_source : ustr := U "public class Me  { {} }
".
Definition prettier80_empty_block_tree : span := (B "parser_output" 1 0 24 0 1 [(B "class_declaration" 2 0 23 0 0 [(B "modifiers" 3 0 6 0 0 [(B "modifier" 4 0 6 0 0 [(B "public" 5 0 6 0 0 [(A "public" 6 0 6 0 0 [])])])]); (A "class" 7 7 12 0 0 []); (B "identifier" 8 13 15 0 0 [] # "name"); (B "class_body" 9 17 23 0 0 [(A "{" 10 17 18 0 0 []); (B "block" 11 19 21 0 0 [(A "{" 12 19 20 0 0 []); (A "}" 13 20 21 0 0 [])]); (A "}" 14 22 23 0 0 [])] # "body")])]).
Example prettier80_empty_block : as_expected prettier80_empty_block_source prettier80_empty_block_tree (U "public class Me {
  {
  }
}
").
Proof. apply run_test_ok. vm_compute. reflexivity. Qed.

(* tests/prettier80/enum1.in *)
Definition prettier80_enum1_source : ustr := U "class BlockMember {
    enum TestEnum {
              ONE,
            TWO                                            
    }                                                   

}
".
Definition prettier80_enum1_tree : span := (B "parser_output" 1 0 179 0 7 [(B "class_declaration" 2 0 178 0 6 [(A "class" 3 0 5 0 0 []); (B "identifier" 4 6 17 0 0 [] # "name"); (B "class_body" 5 18 178 0 6 [(A "{" 6 18 19 0 0 []); (B "enum_declaration" 7 24 124 1 4 [(A "enum" 8 24 28 1 1 []); (B "identifier" 9 29 37 1 1 [] # "name"); (B "enum_body" 10 38 124 1 4 [(A "{" 11 38 39 1 1 []); (B "enum_constant" 12 54 57 2 2 [(B "identifier" 13 54 57 2 2 [] # "name")]); (A "," 14 57 58 2 2 []); (B "enum_constant" 15 71 74 3 3 [(B "identifier" 16 71 74 3 3 [] # "name")]); (A "}" 17 123 124 4 4 [])] # "body")]); (A "}" 18 177 178 6 6 [])] # "body")])]).
Example prettier80_enum1 : as_expected prettier80_enum1_source prettier80_enum1_tree (U "class BlockMember {
  enum TestEnum {
    ONE,
    TWO
  }
}
").
Proof. apply run_test_ok. vm_compute. reflexivity. Qed.

(* tests/prettier80/enum2.in *)
Definition prettier80_enum2_source : ustr := U "public enum MyEnumClass {


   X,   Y    


}
".
Definition prettier80_enum2_tree : span := (B "parser_output" 1 0 46 0 7 [(B "enum_declaration" 2 0 45 0 6 [(B "modifiers" 3 0 6 0 0 [(B "modifier" 4 0 6 0 0 [(B "public" 5 0 6 0 0 [(A "public" 6 0 6 0 0 [])])])]); (A "enum" 7 7 11 0 0 []); (B "identifier" 8 12 23 0 0 [] # "name"); (B "enum_body" 9 24 45 0 6 [(A "{" 10 24 25 0 0 []); (B "enum_constant" 11 31 32 3 3 [(B "identifier" 12 31 32 3 3 [] # "name")]); (A "," 13 32 33 3 3 []); (B "enum_constant" 14 36 37 3 3 [(B "identifier" 15 36 37 3 3 [] # "name")]); (A "}" 16 44 45 6 6 [])] # "body")])]).
Example prettier80_enum2 : as_expected prettier80_enum2_source prettier80_enum2_tree (U "public enum MyEnumClass {
  X,
  Y
}
").
Proof. apply run_test_ok. vm_compute. reflexivity. Qed.

(* tests/prettier80/enum3.in *)
Definition prettier80_enum3_source : ustr := U "public class Me {

     public enum    Season  
        {   WINTER , 
         SPRING 
          , 
  SUMMER              , 

  FALL   


  }
}
".
Definition prettier80_enum3_tree : span := (B "parser_output" 1 0 144 0 13 [(B "class_declaration" 2 0 143 0 12 [(B "modifiers" 3 0 6 0 0 [(B "modifier" 4 0 6 0 0 [(B "public" 5 0 6 0 0 [(A "public" 6 0 6 0 0 [])])])]); (A "class" 7 7 12 0 0 []); (B "identifier" 8 13 15 0 0 [] # "name"); (B "class_body" 9 16 143 0 12 [(A "{" 10 16 17 0 0 []); (B "enum_declaration" 11 24 141 2 11 [(B "modifiers" 12 24 30 2 2 [(B "modifier" 13 24 30 2 2 [(B "public" 14 24 30 2 2 [(A "public" 15 24 30 2 2 [])])])]); (A "enum" 16 31 35 2 2 []); (B "identifier" 17 39 45 2 2 [] # "name"); (B "enum_body" 18 56 141 3 11 [(A "{" 19 56 57 3 3 []); (B "enum_constant" 20 60 66 3 3 [(B "identifier" 21 60 66 3 3 [] # "name")]); (A "," 22 67 68 3 3 []); (B "enum_constant" 23 79 85 4 4 [(B "identifier" 24 79 85 4 4 [] # "name")]); (A "," 25 97 98 5 5 []); (B "enum_constant" 26 102 108 6 6 [(B "identifier" 27 102 108 6 6 [] # "name")]); (A "," 28 122 123 6 6 []); (B "enum_constant" 29 128 132 8 8 [(B "identifier" 30 128 132 8 8 [] # "name")]); (A "}" 31 140 141 11 11 [])] # "body")]); (A "}" 32 142 143 12 12 [])] # "body")])]).
Example prettier80_enum3 : as_expected prettier80_enum3_source prettier80_enum3_tree (U "public class Me {
  public enum Season {
    WINTER,
    SPRING,
    SUMMER,
    FALL
  }
}
").
Proof. apply run_test_ok. vm_compute. reflexivity. Qed.

(* tests/prettier80/ex1.in *)
Definition prettier80_ex1_source : ustr := U "public class Me {
   {

            try 
            {
                  insert a;
        }    catch  (
          DmlException      e
      ) 
                   {
            Boolean failed = true;
    }

   }
}
".
Definition prettier80_ex1_tree : span := (B "parser_output" 1 0 214 0 15 [(B "class_declaration" 2 0 213 0 14 [(B "modifiers" 3 0 6 0 0 [(B "modifier" 4 0 6 0 0 [(B "public" 5 0 6 0 0 [(A "public" 6 0 6 0 0 [])])])]); (A "class" 7 7 12 0 0 []); (B "identifier" 8 13 15 0 0 [] # "name"); (B "class_body" 9 16 213 0 14 [(A "{" 10 16 17 0 0 []); (B "block" 11 21 211 1 13 [(A "{" 12 21 22 1 1 []); (B "try_statement" 13 36 205 3 11 [(A "try" 14 36 39 3 3 []); (B "block" 15 53 92 4 6 [(A "{" 16 53 54 4 4 []); (B "expression_statement" 17 73 82 5 5 [(B "dml_expression" 18 73 81 5 5 [(B "dml_type" 19 73 79 5 5 [(B "insert" 20 73 79 5 5 [(A "insert" 21 73 79 5 5 [])])]); (B "identifier" 22 80 81 5 5 [] # "target")]); (A ";" 23 81 82 5 5 [])]); (A "}" 24 91 92 6 6 [])] # "body"); (B "catch_clause" 25 96 205 6 11 [(A "catch" 26 96 101 6 6 []); (A "(" 27 103 104 6 6 []); (B "formal_parameter" 28 115 134 7 7 [(B "type_identifier" 29 115 127 7 7 [] # "type"); (B "identifier" 30 133 134 7 7 [] # "name")]); (A ")" 31 141 142 8 8 []); (B "block" 32 163 205 9 11 [(A "{" 33 163 164 9 9 []); (B "local_variable_declaration" 34 177 199 10 10 [(B "type_identifier" 35 177 184 10 10 [] # "type"); (B "variable_declarator" 36 185 198 10 10 [(B "identifier" 37 185 191 10 10 [] # "name"); (B "assignment_operator" 38 192 193 10 10 [(A "=" 39 192 193 10 10 [])]); (B "boolean" 40 194 198 10 10 [(A "true" 41 194 198 10 10 [])] # "value")] # "declarator"); (A ";" 42 198 199 10 10 [])]); (A "}" 43 204 205 11 11 [])] # "body")])]); (A "}" 44 210 211 13 13 [])]); (A "}" 45 212 213 14 14 [])] # "body")])]).
Example prettier80_ex1 : as_expected prettier80_ex1_source prettier80_ex1_tree (U "public class Me {
  {
    try {
      insert a;
    } catch (DmlException e) {
      Boolean failed = true;
    }
  }
}
").
Proof. apply run_test_ok. vm_compute. reflexivity. Qed.

(* tests/prettier80/ex2.in *)
Definition prettier80_ex2_source : ustr := U "public class Me {
   {

            try 
            {
                  insert a;
        }    catch  (
          DmlException      e
      ) 
                   {
            Boolean failed = true;
        }     catch(Exception e) 
           {

            Boolean failed = true;
        }  
         
         finally {


              Boolean finallyRan 
                  = true   ;


    }

   }
}

".
Definition prettier80_ex2_tree : span := (B "parser_output" 1 0 406 0 29 [(B "class_declaration" 2 0 404 0 27 [(B "modifiers" 3 0 6 0 0 [(B "modifier" 4 0 6 0 0 [(B "public" 5 0 6 0 0 [(A "public" 6 0 6 0 0 [])])])]); (A "class" 7 7 12 0 0 []); (B "identifier" 8 13 15 0 0 [] # "name"); (B "class_body" 9 16 404 0 27 [(A "{" 10 16 17 0 0 []); (B "block" 11 21 402 1 26 [(A "{" 12 21 22 1 1 []); (B "try_statement" 13 36 396 3 24 [(A "try" 14 36 39 3 3 []); (B "block" 15 53 92 4 6 [(A "{" 16 53 54 4 4 []); (B "expression_statement" 17 73 82 5 5 [(B "dml_expression" 18 73 81 5 5 [(B "dml_type" 19 73 79 5 5 [(B "insert" 20 73 79 5 5 [(A "insert" 21 73 79 5 5 [])])]); (B "identifier" 22 80 81 5 5 [] # "target")]); (A ";" 23 81 82 5 5 [])]); (A "}" 24 91 92 6 6 [])] # "body"); (B "catch_clause" 25 96 209 6 11 [(A "catch" 26 96 101 6 6 []); (A "(" 27 103 104 6 6 []); (B "formal_parameter" 28 115 134 7 7 [(B "type_identifier" 29 115 127 7 7 [] # "type"); (B "identifier" 30 133 134 7 7 [] # "name")]); (A ")" 31 141 142 8 8 []); (B "block" 32 163 209 9 11 [(A "{" 33 163 164 9 9 []); (B "local_variable_declaration" 34 177 199 10 10 [(B "type_identifier" 35 177 184 10 10 [] # "type"); (B "variable_declarator" 36 185 198 10 10 [(B "identifier" 37 185 191 10 10 [] # "name"); (B "assignment_operator" 38 192 193 10 10 [(A "=" 39 192 193 10 10 [])]); (B "boolean" 40 194 198 10 10 [(A "true" 41 194 198 10 10 [])] # "value")] # "declarator"); (A ";" 42 198 199 10 10 [])]); (A "}" 43 208 209 11 11 [])] # "body")]); (B "catch_clause" 44 214 292 11 15 [(A "catch" 45 214 219 11 11 []); (A "(" 46 219 220 11 11 []); (B "formal_parameter" 47 220 231 11 11 [(B "type_identifier" 48 220 229 11 11 [] # "type"); (B "identifier" 49 230 231 11 11 [] # "name")]); (A ")" 50 231 232 11 11 []); (B "block" 51 245 292 12 15 [(A "{" 52 245 246 12 12 []); (B "local_variable_declaration" 53 260 282 14 14 [(B "type_identifier" 54 260 267 14 14 [] # "type"); (B "variable_declarator" 55 268 281 14 14 [(B "identifier" 56 268 274 14 14 [] # "name"); (B "assignment_operator" 57 275 276 14 14 [(A "=" 58 275 276 14 14 [])]); (B "boolean" 59 277 281 14 14 [(A "true" 60 277 281 14 14 [])] # "value")] # "declarator"); (A ";" 61 281 282 14 14 [])]); (A "}" 62 291 292 15 15 [])] # "body")]); (B "finally_clause" 63 314 396 17 24 [(A "finally" 64 314 321 17 17 []); (B "block" 65 322 396 17 24 [(A "{" 66 322 323 17 17 []); (B "local_variable_declaration" 67 340 388 20 21 [(B "type_identifier" 68 340 347 20 20 [] # "type"); (B "variable_declarator" 69 348 384 20 21 [(B "identifier" 70 348 358 20 20 [] # "name"); (B "assignment_operator" 71 378 379 21 21 [(A "=" 72 378 379 21 21 [])]); (B "boolean" 73 380 384 21 21 [(A "true" 74 380 384 21 21 [])] # "value")] # "declarator"); (A ";" 75 387 388 21 21 [])]); (A "}" 76 395 396 24 24 [])])])]); (A "}" 77 401 402 26 26 [])]); (A "}" 78 403 404 27 27 [])] # "body")])]).
Example prettier80_ex2 : as_expected prettier80_ex2_source prettier80_ex2_tree (U "public class Me {
  {
    try {
      insert a;
    } catch (DmlException e) {
      Boolean failed = true;
    } catch (Exception e) {
      Boolean failed = true;
    } finally {
      Boolean finallyRan = true;
    }
  }
}
").
Proof. apply run_test_ok. vm_compute. reflexivity. Qed.

(* tests/prettier80/ex3.in *)
Definition prettier80_ex3_source : ustr := U "public class Me {
   {

            Account a = new Account(Name='Acme');

        try {

              insert a;

        } catch(DmlException e) {


            Boolean failed = true;

            }
   }
}
".
Definition prettier80_ex3_tree : span := (B "parser_output" 1 0 208 0 17 [(B "class_declaration" 2 0 207 0 16 [(B "modifiers" 3 0 6 0 0 [(B "modifier" 4 0 6 0 0 [(B "public" 5 0 6 0 0 [(A "public" 6 0 6 0 0 [])])])]); (A "class" 7 7 12 0 0 []); (B "identifier" 8 13 15 0 0 [] # "name"); (B "class_body" 9 16 207 0 16 [(A "{" 10 16 17 0 0 []); (B "block" 11 21 205 1 15 [(A "{" 12 21 22 1 1 []); (B "local_variable_declaration" 13 36 73 3 3 [(B "type_identifier" 14 36 43 3 3 [] # "type"); (B "variable_declarator" 15 44 72 3 3 [(B "identifier" 16 44 45 3 3 [] # "name"); (B "assignment_operator" 17 46 47 3 3 [(A "=" 18 46 47 3 3 [])]); (B "object_creation_expression" 19 48 72 3 3 [(A "new" 20 48 51 3 3 []); (B "type_identifier" 21 52 59 3 3 [] # "type"); (B "argument_list" 22 59 72 3 3 [(A "(" 23 59 60 3 3 []); (B "assignment_expression" 24 60 71 3 3 [(B "identifier" 25 60 64 3 3 [] # "left"); (B "assignment_operator" 26 64 65 3 3 [(A "=" 27 64 65 3 3 [])] # "operator"); (B "string_literal" 28 65 71 3 3 [] # "right")]); (A ")" 29 71 72 3 3 [])] # "arguments")] # "value")] # "declarator"); (A ";" 30 72 73 3 3 [])]); (B "try_statement" 31 83 200 5 14 [(A "try" 32 83 86 5 5 []); (B "block" 33 87 124 5 9 [(A "{" 34 87 88 5 5 []); (B "expression_statement" 35 104 113 7 7 [(B "dml_expression" 36 104 112 7 7 [(B "dml_type" 37 104 110 7 7 [(B "insert" 38 104 110 7 7 [(A "insert" 39 104 110 7 7 [])])]); (B "identifier" 40 111 112 7 7 [] # "target")]); (A ";" 41 112 113 7 7 [])]); (A "}" 42 123 124 9 9 [])] # "body"); (B "catch_clause" 43 125 200 9 14 [(A "catch" 44 125 130 9 9 []); (A "(" 45 130 131 9 9 []); (B "formal_parameter" 46 131 145 9 9 [(B "type_identifier" 47 131 143 9 9 [] # "type"); (B "identifier" 48 144 145 9 9 [] # "name")]); (A ")" 49 145 146 9 9 []); (B "block" 50 147 200 9 14 [(A "{" 51 147 148 9 9 []); (B "local_variable_declaration" 52 163 185 12 12 [(B "type_identifier" 53 163 170 12 12 [] # "type"); (B "variable_declarator" 54 171 184 12 12 [(B "identifier" 55 171 177 12 12 [] # "name"); (B "assignment_operator" 56 178 179 12 12 [(A "=" 57 178 179 12 12 [])]); (B "boolean" 58 180 184 12 12 [(A "true" 59 180 184 12 12 [])] # "value")] # "declarator"); (A ";" 60 184 185 12 12 [])]); (A "}" 61 199 200 14 14 [])] # "body")])]); (A "}" 62 204 205 15 15 [])]); (A "}" 63 206 207 16 16 [])] # "body")])]).
Example prettier80_ex3 : as_expected prettier80_ex3_source prettier80_ex3_tree (U "public class Me {
  {
    Account a = new Account(Name = 'Acme');

    try {
      insert a;
    } catch (DmlException e) {
      Boolean failed = true;
    }
  }
}
").
Proof. apply run_test_ok. vm_compute. reflexivity. Qed.

(* tests/prettier80/ex4.in *)
Definition prettier80_ex4_source : ustr := U "public class Me {
   {
          try{

            insert a
            ;

        }finally{
            Boolean 
              finallyRan   = true;

        }
   }
}
".
Definition prettier80_ex4_tree : span := (B "parser_output" 1 0 167 0 14 [(B "class_declaration" 2 0 166 0 13 [(B "modifiers" 3 0 6 0 0 [(B "modifier" 4 0 6 0 0 [(B "public" 5 0 6 0 0 [(A "public" 6 0 6 0 0 [])])])]); (A "class" 7 7 12 0 0 []); (B "identifier" 8 13 15 0 0 [] # "name"); (B "class_body" 9 16 166 0 13 [(A "{" 10 16 17 0 0 []); (B "block" 11 21 164 1 12 [(A "{" 12 21 22 1 1 []); (B "try_statement" 13 33 159 2 11 [(A "try" 14 33 36 2 2 []); (B "block" 15 36 84 2 7 [(A "{" 16 36 37 2 2 []); (B "expression_statement" 17 51 73 4 5 [(B "dml_expression" 18 51 59 4 4 [(B "dml_type" 19 51 57 4 4 [(B "insert" 20 51 57 4 4 [(A "insert" 21 51 57 4 4 [])])]); (B "identifier" 22 58 59 4 4 [] # "target")]); (A ";" 23 72 73 5 5 [])]); (A "}" 24 83 84 7 7 [])] # "body"); (B "finally_clause" 25 84 159 7 11 [(A "finally" 26 84 91 7 7 []); (B "block" 27 91 159 7 11 [(A "{" 28 91 92 7 7 []); (B "local_variable_declaration" 29 105 148 8 9 [(B "type_identifier" 30 105 112 8 8 [] # "type"); (B "variable_declarator" 31 128 147 9 9 [(B "identifier" 32 128 138 9 9 [] # "name"); (B "assignment_operator" 33 141 142 9 9 [(A "=" 34 141 142 9 9 [])]); (B "boolean" 35 143 147 9 9 [(A "true" 36 143 147 9 9 [])] # "value")] # "declarator"); (A ";" 37 147 148 9 9 [])]); (A "}" 38 158 159 11 11 [])])])]); (A "}" 39 163 164 12 12 [])]); (A "}" 40 165 166 13 13 [])] # "body")])]).
Example prettier80_ex4 : as_expected prettier80_ex4_source prettier80_ex4_tree (U "public class Me {
  {
    try {
      insert a;
    } finally {
      Boolean finallyRan = true;
    }
  }
}
").
Proof. apply run_test_ok. vm_compute. reflexivity. Qed.

(* tests/prettier80/exp.in *)
Definition prettier80_exp_source : ustr := U "public class Me {
  {

      TestType   testType = 
    Trigger.New  ;

  }
}
".
Definition prettier80_exp_tree : span := (B "parser_output" 1 0 78 0 8 [(B "class_declaration" 2 0 77 0 7 [(B "modifiers" 3 0 6 0 0 [(B "modifier" 4 0 6 0 0 [(B "public" 5 0 6 0 0 [(A "public" 6 0 6 0 0 [])])])]); (A "class" 7 7 12 0 0 []); (B "identifier" 8 13 15 0 0 [] # "name"); (B "class_body" 9 16 77 0 7 [(A "{" 10 16 17 0 0 []); (B "block" 11 20 75 1 6 [(A "{" 12 20 21 1 1 []); (B "local_variable_declaration" 13 29 70 3 4 [(B "type_identifier" 14 29 37 3 3 [] # "type"); (B "variable_declarator" 15 40 67 3 4 [(B "identifier" 16 40 48 3 3 [] # "name"); (B "assignment_operator" 17 49 50 3 3 [(A "=" 18 49 50 3 3 [])]); (B "field_access" 19 56 67 4 4 [(B "identifier" 20 56 63 4 4 [] # "object"); (A "." 21 63 64 4 4 []); (B "identifier" 22 64 67 4 4 [] # "field")] # "value")] # "declarator"); (A ";" 23 69 70 4 4 [])]); (A "}" 24 74 75 6 6 [])]); (A "}" 25 76 77 7 7 [])] # "body")])]).
Example prettier80_exp : as_expected prettier80_exp_source prettier80_exp_tree (U "public class Me {
  {
    TestType testType = Trigger.New;
  }
}
").
Proof. apply run_test_ok. vm_compute. reflexivity. Qed.

(* tests/prettier80/field_access1.in *)
Definition prettier80_field_access1_source : ustr := U "class Conditional {
  {
    if (!SObjectType.Attribute__c.fields.Name.isAccessible()) {
      System.debug('true');
    }
  }
}
".
Definition prettier80_field_access1_tree : span := (B "parser_output" 1 0 128 0 7 [(B "class_declaration" 2 0 127 0 6 [(A "class" 3 0 5 0 0 []); (B "identifier" 4 6 17 0 0 [] # "name"); (B "class_body" 5 18 127 0 6 [(A "{" 6 18 19 0 0 []); (B "block" 7 22 125 1 5 [(A "{" 8 22 23 1 1 []); (B "if_statement" 9 28 121 2 4 [(A "if" 10 28 30 2 2 []); (B "parenthesized_expression" 11 31 85 2 2 [(A "(" 12 31 32 2 2 []); (B "unary_expression" 13 32 84 2 2 [(A "!" 14 32 33 2 2 [] # "operator"); (B "method_invocation" 15 33 84 2 2 [(B "field_access" 16 33 69 2 2 [(B "field_access" 17 33 64 2 2 [(B "field_access" 18 33 57 2 2 [(B "identifier" 19 33 44 2 2 [] # "object"); (A "." 20 44 45 2 2 []); (B "identifier" 21 45 57 2 2 [] # "field")] # "object"); (A "." 22 57 58 2 2 []); (B "identifier" 23 58 64 2 2 [] # "field")] # "object"); (A "." 24 64 65 2 2 []); (B "identifier" 25 65 69 2 2 [] # "field")] # "object"); (A "." 26 69 70 2 2 []); (B "identifier" 27 70 82 2 2 [] # "name"); (B "argument_list" 28 82 84 2 2 [(A "(" 29 82 83 2 2 []); (A ")" 30 83 84 2 2 [])] # "arguments")] # "operand")]); (A ")" 31 84 85 2 2 [])] # "condition"); (B "block" 32 86 121 2 4 [(A "{" 33 86 87 2 2 []); (B "expression_statement" 34 94 115 3 3 [(B "method_invocation" 35 94 114 3 3 [(B "identifier" 36 94 100 3 3 [] # "object"); (A "." 37 100 101 3 3 []); (B "identifier" 38 101 106 3 3 [] # "name"); (B "argument_list" 39 106 114 3 3 [(A "(" 40 106 107 3 3 []); (B "string_literal" 41 107 113 3 3 []); (A ")" 42 113 114 3 3 [])] # "arguments")]); (A ";" 43 114 115 3 3 [])]); (A "}" 44 120 121 4 4 [])] # "consequence")]); (A "}" 45 124 125 5 5 [])]); (A "}" 46 126 127 6 6 [])] # "body")])]).
Example prettier80_field_access1 : as_expected prettier80_field_access1_source prettier80_field_access1_tree (U "class Conditional {
  {
    if (!SObjectType.Attribute__c.fields.Name.isAccessible()) {
      System.debug('true');
    }
  }
}
").
Proof. apply run_test_ok. vm_compute. reflexivity. Qed.

(* tests/prettier80/field_access2.in *)
Definition prettier80_field_access2_source : ustr := U "class Conditional {
  {
    if (!SObjectType.Attribute__c.fields.Display_on_Actions_Tab__c.isAccessible()) {
      System.debug('true');
    }
  }
}
".
Definition prettier80_field_access2_tree : span := (B "parser_output" 1 0 149 0 7 [(B "class_declaration" 2 0 148 0 6 [(A "class" 3 0 5 0 0 []); (B "identifier" 4 6 17 0 0 [] # "name"); (B "class_body" 5 18 148 0 6 [(A "{" 6 18 19 0 0 []); (B "block" 7 22 146 1 5 [(A "{" 8 22 23 1 1 []); (B "if_statement" 9 28 142 2 4 [(A "if" 10 28 30 2 2 []); (B "parenthesized_expression" 11 31 106 2 2 [(A "(" 12 31 32 2 2 []); (B "unary_expression" 13 32 105 2 2 [(A "!" 14 32 33 2 2 [] # "operator"); (B "method_invocation" 15 33 105 2 2 [(B "field_access" 16 33 90 2 2 [(B "field_access" 17 33 64 2 2 [(B "field_access" 18 33 57 2 2 [(B "identifier" 19 33 44 2 2 [] # "object"); (A "." 20 44 45 2 2 []); (B "identifier" 21 45 57 2 2 [] # "field")] # "object"); (A "." 22 57 58 2 2 []); (B "identifier" 23 58 64 2 2 [] # "field")] # "object"); (A "." 24 64 65 2 2 []); (B "identifier" 25 65 90 2 2 [] # "field")] # "object"); (A "." 26 90 91 2 2 []); (B "identifier" 27 91 103 2 2 [] # "name"); (B "argument_list" 28 103 105 2 2 [(A "(" 29 103 104 2 2 []); (A ")" 30 104 105 2 2 [])] # "arguments")] # "operand")]); (A ")" 31 105 106 2 2 [])] # "condition"); (B "block" 32 107 142 2 4 [(A "{" 33 107 108 2 2 []); (B "expression_statement" 34 115 136 3 3 [(B "method_invocation" 35 115 135 3 3 [(B "identifier" 36 115 121 3 3 [] # "object"); (A "." 37 121 122 3 3 []); (B "identifier" 38 122 127 3 3 [] # "name"); (B "argument_list" 39 127 135 3 3 [(A "(" 40 127 128 3 3 []); (B "string_literal" 41 128 134 3 3 []); (A ")" 42 134 135 3 3 [])] # "arguments")]); (A ";" 43 135 136 3 3 [])]); (A "}" 44 141 142 4 4 [])] # "consequence")]); (A "}" 45 145 146 5 5 [])]); (A "}" 46 147 148 6 6 [])] # "body")])]).
Example prettier80_field_access2 : as_expected prettier80_field_access2_source prettier80_field_access2_tree (U "class Conditional {
  {
    if (
      !SObjectType.Attribute__c.fields.Display_on_Actions_Tab__c.isAccessible()
    ) {
      System.debug('true');
    }
  }
}
").
Proof. apply run_test_ok. vm_compute. reflexivity. Qed.

(* tests/prettier80/field_declar.in *)
Definition prettier80_field_declar_source : ustr := U "class MeClass {

  public String aaa, bbbbbbbb, cccccc, dddd, eeeeee, ffffff = 'A quite fit txt';

}

".
Definition prettier80_field_declar_tree : span := (B "parser_output" 1 0 102 0 6 [(B "class_declaration" 2 0 100 0 4 [(A "class" 3 0 5 0 0 []); (B "identifier" 4 6 13 0 0 [] # "name"); (B "class_body" 5 14 100 0 4 [(A "{" 6 14 15 0 0 []); (B "field_declaration" 7 19 97 2 2 [(B "modifiers" 8 19 25 2 2 [(B "modifier" 9 19 25 2 2 [(B "public" 10 19 25 2 2 [(A "public" 11 19 25 2 2 [])])])]); (B "type_identifier" 12 26 32 2 2 [] # "type"); (B "variable_declarator" 13 33 36 2 2 [(B "identifier" 14 33 36 2 2 [] # "name")] # "declarator"); (A "," 15 36 37 2 2 []); (B "variable_declarator" 16 38 46 2 2 [(B "identifier" 17 38 46 2 2 [] # "name")] # "declarator"); (A "," 18 46 47 2 2 []); (B "variable_declarator" 19 48 54 2 2 [(B "identifier" 20 48 54 2 2 [] # "name")] # "declarator"); (A "," 21 54 55 2 2 []); (B "variable_declarator" 22 56 60 2 2 [(B "identifier" 23 56 60 2 2 [] # "name")] # "declarator"); (A "," 24 60 61 2 2 []); (B "variable_declarator" 25 62 68 2 2 [(B "identifier" 26 62 68 2 2 [] # "name")] # "declarator"); (A "," 27 68 69 2 2 []); (B "variable_declarator" 28 70 96 2 2 [(B "identifier" 29 70 76 2 2 [] # "name"); (B "assignment_operator" 30 77 78 2 2 [(A "=" 31 77 78 2 2 [])]); (B "string_literal" 32 79 96 2 2 [] # "value")] # "declarator"); (A ";" 33 96 97 2 2 [])]); (A "}" 34 99 100 4 4 [])] # "body")])]).
Example prettier80_field_declar : as_expected prettier80_field_declar_source prettier80_field_declar_tree (U "class MeClass {
  public String aaa, bbbbbbbb, cccccc, dddd, eeeeee, ffffff = 'A quite fit txt';
}
").
Proof. apply run_test_ok. vm_compute. reflexivity. Qed.

(* tests/prettier80/for1.in *)
Definition prettier80_for1_source : ustr := U "public class Me {
    {
        for( Integer i=0  ; i < 3  ; i++  )
        {
            System.debug(i);
                System.debug(i);
                  i = 5;
            }
        
    }
}
".
Definition prettier80_for1_tree : span := (B "parser_output" 1 0 196 0 11 [(B "class_declaration" 2 0 195 0 10 [(B "modifiers" 3 0 6 0 0 [(B "modifier" 4 0 6 0 0 [(B "public" 5 0 6 0 0 [(A "public" 6 0 6 0 0 [])])])]); (A "class" 7 7 12 0 0 []); (B "identifier" 8 13 15 0 0 [] # "name"); (B "class_body" 9 16 195 0 10 [(A "{" 10 16 17 0 0 []); (B "block" 11 22 193 1 9 [(A "{" 12 22 23 1 1 []); (B "for_statement" 13 32 178 2 7 [(A "for" 14 32 35 2 2 []); (A "(" 15 35 36 2 2 []); (B "local_variable_declaration" 16 37 51 2 2 [(B "type_identifier" 17 37 44 2 2 [] # "type"); (B "variable_declarator" 18 45 48 2 2 [(B "identifier" 19 45 46 2 2 [] # "name"); (B "assignment_operator" 20 46 47 2 2 [(A "=" 21 46 47 2 2 [])]); (B "int" 22 47 48 2 2 [] # "value")] # "declarator"); (A ";" 23 50 51 2 2 [])] # "init"); (B "binary_expression" 24 52 57 2 2 [(B "identifier" 25 52 53 2 2 [] # "left"); (A "<" 26 54 55 2 2 [] # "operator"); (B "int" 27 56 57 2 2 [] # "right")] # "condition"); (A ";" 28 59 60 2 2 []); (B "update_expression" 29 61 64 2 2 [(B "identifier" 30 61 62 2 2 [] # "operand"); (A "++" 31 62 64 2 2 [] # "operator")] # "update"); (A ")" 32 66 67 2 2 []); (B "block" 33 76 178 3 7 [(A "{" 34 76 77 3 3 []); (B "expression_statement" 35 90 106 4 4 [(B "method_invocation" 36 90 105 4 4 [(B "identifier" 37 90 96 4 4 [] # "object"); (A "." 38 96 97 4 4 []); (B "identifier" 39 97 102 4 4 [] # "name"); (B "argument_list" 40 102 105 4 4 [(A "(" 41 102 103 4 4 []); (B "identifier" 42 103 104 4 4 []); (A ")" 43 104 105 4 4 [])] # "arguments")]); (A ";" 44 105 106 4 4 [])]); (B "expression_statement" 45 123 139 5 5 [(B "method_invocation" 46 123 138 5 5 [(B "identifier" 47 123 129 5 5 [] # "object"); (A "." 48 129 130 5 5 []); (B "identifier" 49 130 135 5 5 [] # "name"); (B "argument_list" 50 135 138 5 5 [(A "(" 51 135 136 5 5 []); (B "identifier" 52 136 137 5 5 []); (A ")" 53 137 138 5 5 [])] # "arguments")]); (A ";" 54 138 139 5 5 [])]); (B "expression_statement" 55 158 164 6 6 [(B "assignment_expression" 56 158 163 6 6 [(B "identifier" 57 158 159 6 6 [] # "left"); (B "assignment_operator" 58 160 161 6 6 [(A "=" 59 160 161 6 6 [])] # "operator"); (B "int" 60 162 163 6 6 [] # "right")]); (A ";" 61 163 164 6 6 [])]); (A "}" 62 177 178 7 7 [])] # "body")]); (A "}" 63 192 193 9 9 [])]); (A "}" 64 194 195 10 10 [])] # "body")])]).
Example prettier80_for1 : as_expected prettier80_for1_source prettier80_for1_tree (U "public class Me {
  {
    for (Integer i = 0; i < 3; i++) {
      System.debug(i);
      System.debug(i);
      i = 5;
    }
  }
}
").
Proof. apply run_test_ok. vm_compute. reflexivity. Qed.

(* tests/prettier80/for_loop1.in *)
Definition prettier80_for_loop1_source : ustr := U "public class A {
  public static void B() {
    Integer i;
    for (i = 0; i < 20; i++) {
    }
  }
}
".
Definition prettier80_for_loop1_tree : span := (B "parser_output" 1 0 102 0 7 [(B "class_declaration" 2 0 101 0 6 [(B "modifiers" 3 0 6 0 0 [(B "modifier" 4 0 6 0 0 [(B "public" 5 0 6 0 0 [(A "public" 6 0 6 0 0 [])])])]); (A "class" 7 7 12 0 0 []); (B "identifier" 8 13 14 0 0 [] # "name"); (B "class_body" 9 15 101 0 6 [(A "{" 10 15 16 0 0 []); (B "method_declaration" 11 19 99 1 5 [(B "modifiers" 12 19 32 1 1 [(B "modifier" 13 19 25 1 1 [(B "public" 14 19 25 1 1 [(A "public" 15 19 25 1 1 [])])]); (B "modifier" 16 26 32 1 1 [(B "static" 17 26 32 1 1 [(A "static" 18 26 32 1 1 [])])])]); (B "void_type" 19 33 37 1 1 [] # "type"); (B "identifier" 20 38 39 1 1 [] # "name"); (B "formal_parameters" 21 39 41 1 1 [(A "(" 22 39 40 1 1 []); (A ")" 23 40 41 1 1 [])] # "parameters"); (B "block" 24 42 99 1 5 [(A "{" 25 42 43 1 1 []); (B "local_variable_declaration" 26 48 58 2 2 [(B "type_identifier" 27 48 55 2 2 [] # "type"); (B "variable_declarator" 28 56 57 2 2 [(B "identifier" 29 56 57 2 2 [] # "name")] # "declarator"); (A ";" 30 57 58 2 2 [])]); (B "for_statement" 31 63 95 3 4 [(A "for" 32 63 66 3 3 []); (A "(" 33 67 68 3 3 []); (B "assignment_expression" 34 68 73 3 3 [(B "identifier" 35 68 69 3 3 [] # "left"); (B "assignment_operator" 36 70 71 3 3 [(A "=" 37 70 71 3 3 [])] # "operator"); (B "int" 38 72 73 3 3 [] # "right")] # "init"); (A ";" 39 73 74 3 3 []); (B "binary_expression" 40 75 81 3 3 [(B "identifier" 41 75 76 3 3 [] # "left"); (A "<" 42 77 78 3 3 [] # "operator"); (B "int" 43 79 81 3 3 [] # "right")] # "condition"); (A ";" 44 81 82 3 3 []); (B "update_expression" 45 83 86 3 3 [(B "identifier" 46 83 84 3 3 [] # "operand"); (A "++" 47 84 86 3 3 [] # "operator")] # "update"); (A ")" 48 86 87 3 3 []); (B "block" 49 88 95 3 4 [(A "{" 50 88 89 3 3 []); (A "}" 51 94 95 4 4 [])] # "body")]); (A "}" 52 98 99 5 5 [])] # "body")]); (A "}" 53 100 101 6 6 [])] # "body")])]).
Example prettier80_for_loop1 : as_expected prettier80_for_loop1_source prettier80_for_loop1_tree (U "public class A {
  public static void B() {
    Integer i;
    for (i = 0; i < 20; i++) {
    }
  }
}
").
Proof. apply run_test_ok. vm_compute. reflexivity. Qed.

(* tests/prettier80/getter_setter_wrap.in *)
Definition prettier80_getter_setter_wrap_source : ustr := U "class A {
    private static final String j {
    get {
            Boolean aaaaaaaaaaaaaaaaaaaaaaaaaaaaa = bbbbbbbbbbbbbbbbbbbbbbbbbbbbbbbbbbbb > 1111;
        }


            set {
            Boolean aaaaaaaaaaaaaaaaaaaaaaaaaaaaa = bbbbbbbbbbbbbbbbbbbbbbbbbbbbbbbbbbbb > 1111;
        }
    }
}
".
Definition prettier80_getter_setter_wrap_tree : span := (B "parser_output" 1 0 298 0 12 [(B "class_declaration" 2 0 297 0 11 [(A "class" 3 0 5 0 0 []); (B "identifier" 4 6 7 0 0 [] # "name"); (B "class_body" 5 8 297 0 11 [(A "{" 6 8 9 0 0 []); (B "field_declaration" 7 14 295 1 10 [(B "modifiers" 8 14 34 1 1 [(B "modifier" 9 14 21 1 1 [(B "private" 10 14 21 1 1 [(A "private" 11 14 21 1 1 [])])]); (B "modifier" 12 22 28 1 1 [(B "static" 13 22 28 1 1 [(A "static" 14 22 28 1 1 [])])]); (B "modifier" 15 29 34 1 1 [(B "final" 16 29 34 1 1 [(A "final" 17 29 34 1 1 [])])])]); (B "type_identifier" 18 35 41 1 1 [] # "type"); (B "variable_declarator" 19 42 43 1 1 [(B "identifier" 20 42 43 1 1 [] # "name")] # "declarator"); (B "accessor_list" 21 44 295 1 10 [(A "{" 22 44 45 1 1 []); (B "accessor_declaration" 23 50 162 2 4 [(A "get" 24 50 53 2 2 [] # "accessor"); (B "block" 25 54 162 2 4 [(A "{" 26 54 55 2 2 []); (B "local_variable_declaration" 27 68 152 3 3 [(B "type_identifier" 28 68 75 3 3 [] # "type"); (B "variable_declarator" 29 76 151 3 3 [(B "identifier" 30 76 105 3 3 [] # "name"); (B "assignment_operator" 31 106 107 3 3 [(A "=" 32 106 107 3 3 [])]); (B "binary_expression" 33 108 151 3 3 [(B "identifier" 34 108 144 3 3 [] # "left"); (A ">" 35 145 146 3 3 [] # "operator"); (B "int" 36 147 151 3 3 [] # "right")] # "value")] # "declarator"); (A ";" 37 151 152 3 3 [])]); (A "}" 38 161 162 4 4 [])] # "body")]); (B "accessor_declaration" 39 177 289 7 9 [(A "set" 40 177 180 7 7 [] # "accessor"); (B "block" 41 181 289 7 9 [(A "{" 42 181 182 7 7 []); (B "local_variable_declaration" 43 195 279 8 8 [(B "type_identifier" 44 195 202 8 8 [] # "type"); (B "variable_declarator" 45 203 278 8 8 [(B "identifier" 46 203 232 8 8 [] # "name"); (B "assignment_operator" 47 233 234 8 8 [(A "=" 48 233 234 8 8 [])]); (B "binary_expression" 49 235 278 8 8 [(B "identifier" 50 235 271 8 8 [] # "left"); (A ">" 51 272 273 8 8 [] # "operator"); (B "int" 52 274 278 8 8 [] # "right")] # "value")] # "declarator"); (A ";" 53 278 279 8 8 [])]); (A "}" 54 288 289 9 9 [])] # "body")]); (A "}" 55 294 295 10 10 [])])]); (A "}" 56 296 297 11 11 [])] # "body")])]).
Example prettier80_getter_setter_wrap : as_expected prettier80_getter_setter_wrap_source prettier80_getter_setter_wrap_tree (U "class A {
  private static final String j {
    get {
      Boolean aaaaaaaaaaaaaaaaaaaaaaaaaaaaa =
        bbbbbbbbbbbbbbbbbbbbbbbbbbbbbbbbbbbb > 1111;
    }
    set {
      Boolean aaaaaaaaaaaaaaaaaaaaaaaaaaaaa =
        bbbbbbbbbbbbbbbbbbbbbbbbbbbbbbbbbbbb > 1111;
    }
  }
}
").
Proof. apply run_test_ok. vm_compute. reflexivity. Qed.

(* tests/prettier80/if.in *)
Definition prettier80_if_source : ustr := U "public with sharing class MyClass {
    public void hello(String s){
     if(s == 'hello'){
     }
        
    }

}
".
Definition prettier80_if_tree : span := (B "parser_output" 1 0 117 0 8 [(B "class_declaration" 2 0 116 0 7 [(B "modifiers" 3 0 19 0 0 [(B "modifier" 4 0 6 0 0 [(B "public" 5 0 6 0 0 [(A "public" 6 0 6 0 0 [])])]); (B "modifier" 7 7 19 0 0 [(B "with_sharing" 8 7 19 0 0 [(A "with" 9 7 11 0 0 []); (A "sharing" 10 12 19 0 0 [])])])]); (A "class" 11 20 25 0 0 []); (B "identifier" 12 26 33 0 0 [] # "name"); (B "class_body" 13 34 116 0 7 [(A "{" 14 34 35 0 0 []); (B "method_declaration" 15 40 113 1 5 [(B "modifiers" 16 40 46 1 1 [(B "modifier" 17 40 46 1 1 [(B "public" 18 40 46 1 1 [(A "public" 19 40 46 1 1 [])])])]); (B "void_type" 20 47 51 1 1 [] # "type"); (B "identifier" 21 52 57 1 1 [] # "name"); (B "formal_parameters" 22 57 67 1 1 [(A "(" 23 57 58 1 1 []); (B "formal_parameter" 24 58 66 1 1 [(B "type_identifier" 25 58 64 1 1 [] # "type"); (B "identifier" 26 65 66 1 1 [] # "name")]); (A ")" 27 66 67 1 1 [])] # "parameters"); (B "block" 28 67 113 1 5 [(A "{" 29 67 68 1 1 []); (B "if_statement" 30 74 98 2 3 [(A "if" 31 74 76 2 2 []); (B "parenthesized_expression" 32 76 90 2 2 [(A "(" 33 76 77 2 2 []); (B "binary_expression" 34 77 89 2 2 [(B "identifier" 35 77 78 2 2 [] # "left"); (A "==" 36 79 81 2 2 [] # "operator"); (B "string_literal" 37 82 89 2 2 [] # "right")]); (A ")" 38 89 90 2 2 [])] # "condition"); (B "block" 39 90 98 2 3 [(A "{" 40 90 91 2 2 []); (A "}" 41 97 98 3 3 [])] # "consequence")]); (A "}" 42 112 113 5 5 [])] # "body")]); (A "}" 43 115 116 7 7 [])] # "body")])]).
Example prettier80_if : as_expected prettier80_if_source prettier80_if_tree (U "public with sharing class MyClass {
  public void hello(String s) {
    if (s == 'hello') {
    }
  }
}
").
Proof. apply run_test_ok. vm_compute. reflexivity. Qed.

(* tests/prettier80/if1.in *)
Definition prettier80_if1_source : ustr := U "public class Me {
  {
    if (true)
      Integer i = 1;
    else if (false)
      Integer l = 3;
    else
      Integer j = 2;
  }
}
".
Definition prettier80_if1_tree : span := (B "parser_output" 1 0 134 0 10 [(B "class_declaration" 2 0 133 0 9 [(B "modifiers" 3 0 6 0 0 [(B "modifier" 4 0 6 0 0 [(B "public" 5 0 6 0 0 [(A "public" 6 0 6 0 0 [])])])]); (A "class" 7 7 12 0 0 []); (B "identifier" 8 13 15 0 0 [] # "name"); (B "class_body" 9 16 133 0 9 [(A "{" 10 16 17 0 0 []); (B "block" 11 20 131 1 8 [(A "{" 12 20 21 1 1 []); (B "if_statement" 13 26 127 2 7 [(A "if" 14 26 28 2 2 []); (B "parenthesized_expression" 15 29 35 2 2 [(A "(" 16 29 30 2 2 []); (B "boolean" 17 30 34 2 2 [(A "true" 18 30 34 2 2 [])]); (A ")" 19 34 35 2 2 [])] # "condition"); (B "local_variable_declaration" 20 42 56 3 3 [(B "type_identifier" 21 42 49 3 3 [] # "type"); (B "variable_declarator" 22 50 55 3 3 [(B "identifier" 23 50 51 3 3 [] # "name"); (B "assignment_operator" 24 52 53 3 3 [(A "=" 25 52 53 3 3 [])]); (B "int" 26 54 55 3 3 [] # "value")] # "declarator"); (A ";" 27 55 56 3 3 [])] # "consequence"); (A "else" 28 61 65 4 4 []); (B "if_statement" 29 66 127 4 7 [(A "if" 30 66 68 4 4 []); (B "parenthesized_expression" 31 69 76 4 4 [(A "(" 32 69 70 4 4 []); (B "boolean" 33 70 75 4 4 [(A "false" 34 70 75 4 4 [])]); (A ")" 35 75 76 4 4 [])] # "condition"); (B "local_variable_declaration" 36 83 97 5 5 [(B "type_identifier" 37 83 90 5 5 [] # "type"); (B "variable_declarator" 38 91 96 5 5 [(B "identifier" 39 91 92 5 5 [] # "name"); (B "assignment_operator" 40 93 94 5 5 [(A "=" 41 93 94 5 5 [])]); (B "int" 42 95 96 5 5 [] # "value")] # "declarator"); (A ";" 43 96 97 5 5 [])] # "consequence"); (A "else" 44 102 106 6 6 []); (B "local_variable_declaration" 45 113 127 7 7 [(B "type_identifier" 46 113 120 7 7 [] # "type"); (B "variable_declarator" 47 121 126 7 7 [(B "identifier" 48 121 122 7 7 [] # "name"); (B "assignment_operator" 49 123 124 7 7 [(A "=" 50 123 124 7 7 [])]); (B "int" 51 125 126 7 7 [] # "value")] # "declarator"); (A ";" 52 126 127 7 7 [])] # "alternative")] # "alternative")]); (A "}" 53 130 131 8 8 [])]); (A "}" 54 132 133 9 9 [])] # "body")])]).
Example prettier80_if1 : as_expected prettier80_if1_source prettier80_if1_tree (U "public class Me {
  {
    if (true)
      Integer i = 1;
    else if (false)
      Integer l = 3;
    else
      Integer j = 2;
  }
}
").
Proof. apply run_test_ok. vm_compute. reflexivity. Qed.

(* tests/prettier80/if2.in *)
Definition prettier80_if2_source : ustr := U "public class Me {
  {
    if   (
    true 
    ) {
      Integer i =  1  ;
    }    else  
    {
        Integer 
      j =   2    ;

    }
      }
  }
".
Definition prettier80_if2_tree : span := (B "parser_output" 1 0 152 0 14 [(B "class_declaration" 2 0 151 0 13 [(B "modifiers" 3 0 6 0 0 [(B "modifier" 4 0 6 0 0 [(B "public" 5 0 6 0 0 [(A "public" 6 0 6 0 0 [])])])]); (A "class" 7 7 12 0 0 []); (B "identifier" 8 13 15 0 0 [] # "name"); (B "class_body" 9 16 151 0 13 [(A "{" 10 16 17 0 0 []); (B "block" 11 20 147 1 12 [(A "{" 12 20 21 1 1 []); (B "if_statement" 13 26 139 2 11 [(A "if" 14 26 28 2 2 []); (B "parenthesized_expression" 15 31 48 2 4 [(A "(" 16 31 32 2 2 []); (B "boolean" 17 37 41 3 3 [(A "true" 18 37 41 3 3 [])]); (A ")" 19 47 48 4 4 [])] # "condition"); (B "block" 20 49 80 4 6 [(A "{" 21 49 50 4 4 []); (B "local_variable_declaration" 22 57 74 5 5 [(B "type_identifier" 23 57 64 5 5 [] # "type"); (B "variable_declarator" 24 65 71 5 5 [(B "identifier" 25 65 66 5 5 [] # "name"); (B "assignment_operator" 26 67 68 5 5 [(A "=" 27 67 68 5 5 [])]); (B "int" 28 70 71 5 5 [] # "value")] # "declarator"); (A ";" 29 73 74 5 5 [])]); (A "}" 30 79 80 6 6 [])] # "consequence"); (A "else" 31 84 88 6 6 []); (B "block" 32 95 139 7 11 [(A "{" 33 95 96 7 7 []); (B "local_variable_declaration" 34 105 132 8 9 [(B "type_identifier" 35 105 112 8 8 [] # "type"); (B "variable_declarator" 36 120 127 9 9 [(B "identifier" 37 120 121 9 9 [] # "name"); (B "assignment_operator" 38 122 123 9 9 [(A "=" 39 122 123 9 9 [])]); (B "int" 40 126 127 9 9 [] # "value")] # "declarator"); (A ";" 41 131 132 9 9 [])]); (A "}" 42 138 139 11 11 [])] # "alternative")]); (A "}" 43 146 147 12 12 [])]); (A "}" 44 150 151 13 13 [])] # "body")])]).
Example prettier80_if2 : as_expected prettier80_if2_source prettier80_if2_tree (U "public class Me {
  {
    if (true) {
      Integer i = 1;
    } else {
      Integer j = 2;
    }
  }
}
").
Proof. apply run_test_ok. vm_compute. reflexivity. Qed.

(* tests/prettier80/if3.in *)
Definition prettier80_if3_source : ustr := U "public class Me {
  {
    if (true) {
      Integer i = 1;
      } else if   (false  ) {
        Integer l = 3;
    } else {
      Integer j = 2;
    }
  }
}

".
Definition prettier80_if3_tree : span := (B "parser_output" 1 0 159 0 12 [(B "class_declaration" 2 0 157 0 10 [(B "modifiers" 3 0 6 0 0 [(B "modifier" 4 0 6 0 0 [(B "public" 5 0 6 0 0 [(A "public" 6 0 6 0 0 [])])])]); (A "class" 7 7 12 0 0 []); (B "identifier" 8 13 15 0 0 [] # "name"); (B "class_body" 9 16 157 0 10 [(A "{" 10 16 17 0 0 []); (B "block" 11 20 155 1 9 [(A "{" 12 20 21 1 1 []); (B "if_statement" 13 26 151 2 8 [(A "if" 14 26 28 2 2 []); (B "parenthesized_expression" 15 29 35 2 2 [(A "(" 16 29 30 2 2 []); (B "boolean" 17 30 34 2 2 [(A "true" 18 30 34 2 2 [])]); (A ")" 19 34 35 2 2 [])] # "condition"); (B "block" 20 36 66 2 4 [(A "{" 21 36 37 2 2 []); (B "local_variable_declaration" 22 44 58 3 3 [(B "type_identifier" 23 44 51 3 3 [] # "type"); (B "variable_declarator" 24 52 57 3 3 [(B "identifier" 25 52 53 3 3 [] # "name"); (B "assignment_operator" 26 54 55 3 3 [(A "=" 27 54 55 3 3 [])]); (B "int" 28 56 57 3 3 [] # "value")] # "declarator"); (A ";" 29 57 58 3 3 [])]); (A "}" 30 65 66 4 4 [])] # "consequence"); (A "else" 31 67 71 4 4 []); (B "if_statement" 32 72 151 4 8 [(A "if" 33 72 74 4 4 []); (B "parenthesized_expression" 34 77 86 4 4 [(A "(" 35 77 78 4 4 []); (B "boolean" 36 78 83 4 4 [(A "false" 37 78 83 4 4 [])]); (A ")" 38 85 86 4 4 [])] # "condition"); (B "block" 39 87 117 4 6 [(A "{" 40 87 88 4 4 []); (B "local_variable_declaration" 41 97 111 5 5 [(B "type_identifier" 42 97 104 5 5 [] # "type"); (B "variable_declarator" 43 105 110 5 5 [(B "identifier" 44 105 106 5 5 [] # "name"); (B "assignment_operator" 45 107 108 5 5 [(A "=" 46 107 108 5 5 [])]); (B "int" 47 109 110 5 5 [] # "value")] # "declarator"); (A ";" 48 110 111 5 5 [])]); (A "}" 49 116 117 6 6 [])] # "consequence"); (A "else" 50 118 122 6 6 []); (B "block" 51 123 151 6 8 [(A "{" 52 123 124 6 6 []); (B "local_variable_declaration" 53 131 145 7 7 [(B "type_identifier" 54 131 138 7 7 [] # "type"); (B "variable_declarator" 55 139 144 7 7 [(B "identifier" 56 139 140 7 7 [] # "name"); (B "assignment_operator" 57 141 142 7 7 [(A "=" 58 141 142 7 7 [])]); (B "int" 59 143 144 7 7 [] # "value")] # "declarator"); (A ";" 60 144 145 7 7 [])]); (A "}" 61 150 151 8 8 [])] # "alternative")] # "alternative")]); (A "}" 62 154 155 9 9 [])]); (A "}" 63 156 157 10 10 [])] # "body")])]).
Example prettier80_if3 : as_expected prettier80_if3_source prettier80_if3_tree (U "public class Me {
  {
    if (true) {
      Integer i = 1;
    } else if (false) {
      Integer l = 3;
    } else {
      Integer j = 2;
    }
  }
}
").
Proof. apply run_test_ok. vm_compute. reflexivity. Qed.

(* tests/prettier80/if4.in *)
Definition prettier80_if4_source : ustr := U "public class Me {
  {
    if (true) {
      Integer i =  1 ;
    } else if (false) {
        Integer l  = 3;
    }  else if (true) 
      Integer a = 3;
     else {
      Integer j =   2
      ;
    }
  }
}
".
Definition prettier80_if4_tree : span := (B "parser_output" 1 0 207 0 14 [(B "class_declaration" 2 0 206 0 13 [(B "modifiers" 3 0 6 0 0 [(B "modifier" 4 0 6 0 0 [(B "public" 5 0 6 0 0 [(A "public" 6 0 6 0 0 [])])])]); (A "class" 7 7 12 0 0 []); (B "identifier" 8 13 15 0 0 [] # "name"); (B "class_body" 9 16 206 0 13 [(A "{" 10 16 17 0 0 []); (B "block" 11 20 204 1 12 [(A "{" 12 20 21 1 1 []); (B "if_statement" 13 26 200 2 11 [(A "if" 14 26 28 2 2 []); (B "parenthesized_expression" 15 29 35 2 2 [(A "(" 16 29 30 2 2 []); (B "boolean" 17 30 34 2 2 [(A "true" 18 30 34 2 2 [])]); (A ")" 19 34 35 2 2 [])] # "condition"); (B "block" 20 36 66 2 4 [(A "{" 21 36 37 2 2 []); (B "local_variable_declaration" 22 44 60 3 3 [(B "type_identifier" 23 44 51 3 3 [] # "type"); (B "variable_declarator" 24 52 58 3 3 [(B "identifier" 25 52 53 3 3 [] # "name"); (B "assignment_operator" 26 54 55 3 3 [(A "=" 27 54 55 3 3 [])]); (B "int" 28 57 58 3 3 [] # "value")] # "declarator"); (A ";" 29 59 60 3 3 [])]); (A "}" 30 65 66 4 4 [])] # "consequence"); (A "else" 31 67 71 4 4 []); (B "if_statement" 32 72 200 4 11 [(A "if" 33 72 74 4 4 []); (B "parenthesized_expression" 34 75 82 4 4 [(A "(" 35 75 76 4 4 []); (B "boolean" 36 76 81 4 4 [(A "false" 37 76 81 4 4 [])]); (A ")" 38 81 82 4 4 [])] # "condition"); (B "block" 39 83 114 4 6 [(A "{" 40 83 84 4 4 []); (B "local_variable_declaration" 41 93 108 5 5 [(B "type_identifier" 42 93 100 5 5 [] # "type"); (B "variable_declarator" 43 101 107 5 5 [(B "identifier" 44 101 102 5 5 [] # "name"); (B "assignment_operator" 45 104 105 5 5 [(A "=" 46 104 105 5 5 [])]); (B "int" 47 106 107 5 5 [] # "value")] # "declarator"); (A ";" 48 107 108 5 5 [])]); (A "}" 49 113 114 6 6 [])] # "consequence"); (A "else" 50 116 120 6 6 []); (B "if_statement" 51 121 200 6 11 [(A "if" 52 121 123 6 6 []); (B "parenthesized_expression" 53 124 130 6 6 [(A "(" 54 124 125 6 6 []); (B "boolean" 55 125 129 6 6 [(A "true" 56 125 129 6 6 [])]); (A ")" 57 129 130 6 6 [])] # "condition"); (B "local_variable_declaration" 58 138 152 7 7 [(B "type_identifier" 59 138 145 7 7 [] # "type"); (B "variable_declarator" 60 146 151 7 7 [(B "identifier" 61 146 147 7 7 [] # "name"); (B "assignment_operator" 62 148 149 7 7 [(A "=" 63 148 149 7 7 [])]); (B "int" 64 150 151 7 7 [] # "value")] # "declarator"); (A ";" 65 151 152 7 7 [])] # "consequence"); (A "else" 66 158 162 8 8 []); (B "block" 67 163 200 8 11 [(A "{" 68 163 164 8 8 []); (B "local_variable_declaration" 69 171 194 9 10 [(B "type_identifier" 70 171 178 9 9 [] # "type"); (B "variable_declarator" 71 179 186 9 9 [(B "identifier" 72 179 180 9 9 [] # "name"); (B "assignment_operator" 73 181 182 9 9 [(A "=" 74 181 182 9 9 [])]); (B "int" 75 185 186 9 9 [] # "value")] # "declarator"); (A ";" 76 193 194 10 10 [])]); (A "}" 77 199 200 11 11 [])] # "alternative")] # "alternative")] # "alternative")]); (A "}" 78 203 204 12 12 [])]); (A "}" 79 205 206 13 13 [])] # "body")])]).
Example prettier80_if4 : as_expected prettier80_if4_source prettier80_if4_tree (U "public class Me {
  {
    if (true) {
      Integer i = 1;
    } else if (false) {
      Integer l = 3;
    } else if (true)
      Integer a = 3;
    else {
      Integer j = 2;
    }
  }
}
").
Proof. apply run_test_ok. vm_compute. reflexivity. Qed.

(* tests/prettier80/if6.in *)
Definition prettier80_if6_source : ustr := U "public class Me {
  {
    if (true) {
      Integer i = 1;
      } if (true){


      Integer l = 3;
      } else if (false){

      Integer a = 3;
      }
  }
}
".
Definition prettier80_if6_tree : span := (B "parser_output" 1 0 162 0 14 [(B "class_declaration" 2 0 161 0 13 [(B "modifiers" 3 0 6 0 0 [(B "modifier" 4 0 6 0 0 [(B "public" 5 0 6 0 0 [(A "public" 6 0 6 0 0 [])])])]); (A "class" 7 7 12 0 0 []); (B "identifier" 8 13 15 0 0 [] # "name"); (B "class_body" 9 16 161 0 13 [(A "{" 10 16 17 0 0 []); (B "block" 11 20 159 1 12 [(A "{" 12 20 21 1 1 []); (B "if_statement" 13 26 66 2 4 [(A "if" 14 26 28 2 2 []); (B "parenthesized_expression" 15 29 35 2 2 [(A "(" 16 29 30 2 2 []); (B "boolean" 17 30 34 2 2 [(A "true" 18 30 34 2 2 [])]); (A ")" 19 34 35 2 2 [])] # "condition"); (B "block" 20 36 66 2 4 [(A "{" 21 36 37 2 2 []); (B "local_variable_declaration" 22 44 58 3 3 [(B "type_identifier" 23 44 51 3 3 [] # "type"); (B "variable_declarator" 24 52 57 3 3 [(B "identifier" 25 52 53 3 3 [] # "name"); (B "assignment_operator" 26 54 55 3 3 [(A "=" 27 54 55 3 3 [])]); (B "int" 28 56 57 3 3 [] # "value")] # "declarator"); (A ";" 29 57 58 3 3 [])]); (A "}" 30 65 66 4 4 [])] # "consequence")]); (B "if_statement" 31 67 155 4 11 [(A "if" 32 67 69 4 4 []); (B "parenthesized_expression" 33 70 76 4 4 [(A "(" 34 70 71 4 4 []); (B "boolean" 35 71 75 4 4 [(A "true" 36 71 75 4 4 [])]); (A ")" 37 75 76 4 4 [])] # "condition"); (B "block" 38 76 108 4 8 [(A "{" 39 76 77 4 4 []); (B "local_variable_declaration" 40 86 100 7 7 [(B "type_identifier" 41 86 93 7 7 [] # "type"); (B "variable_declarator" 42 94 99 7 7 [(B "identifier" 43 94 95 7 7 [] # "name"); (B "assignment_operator" 44 96 97 7 7 [(A "=" 45 96 97 7 7 [])]); (B "int" 46 98 99 7 7 [] # "value")] # "declarator"); (A ";" 47 99 100 7 7 [])]); (A "}" 48 107 108 8 8 [])] # "consequence"); (A "else" 49 109 113 8 8 []); (B "if_statement" 50 114 155 8 11 [(A "if" 51 114 116 8 8 []); (B "parenthesized_expression" 52 117 124 8 8 [(A "(" 53 117 118 8 8 []); (B "boolean" 54 118 123 8 8 [(A "false" 55 118 123 8 8 [])]); (A ")" 56 123 124 8 8 [])] # "condition"); (B "block" 57 124 155 8 11 [(A "{" 58 124 125 8 8 []); (B "local_variable_declaration" 59 133 147 10 10 [(B "type_identifier" 60 133 140 10 10 [] # "type"); (B "variable_declarator" 61 141 146 10 10 [(B "identifier" 62 141 142 10 10 [] # "name"); (B "assignment_operator" 63 143 144 10 10 [(A "=" 64 143 144 10 10 [])]); (B "int" 65 145 146 10 10 [] # "value")] # "declarator"); (A ";" 66 146 147 10 10 [])]); (A "}" 67 154 155 11 11 [])] # "consequence")] # "alternative")]); (A "}" 68 158 159 12 12 [])]); (A "}" 69 160 161 13 13 [])] # "body")])]).
Example prettier80_if6 : as_expected prettier80_if6_source prettier80_if6_tree (U "public class Me {
  {
    if (true) {
      Integer i = 1;
    }
    if (true) {
      Integer l = 3;
    } else if (false) {
      Integer a = 3;
    }
  }
}
").
Proof. apply run_test_ok. vm_compute. reflexivity. Qed.

(* tests/prettier80/li1.in *)
Definition prettier80_li1_source : ustr := U "public class OuterClass {
  // Static final variable (constant) " ++ [8211%N] ++ U " outer class level only
  private static final   Integer MY_INT  ;   

}
".
Definition prettier80_li1_tree : span := (B "parser_output" 1 0 138 0 5 [(B "class_declaration" 2 0 137 0 4 [(B "modifiers" 3 0 6 0 0 [(B "modifier" 4 0 6 0 0 [(B "public" 5 0 6 0 0 [(A "public" 6 0 6 0 0 [])])])]); (A "class" 7 7 12 0 0 []); (B "identifier" 8 13 23 0 0 [] # "name"); (B "class_body" 9 24 137 0 4 [(A "{" 10 24 25 0 0 []); (C "line_comment" 11 28 88 1 1 []); (B "field_declaration" 12 91 131 2 2 [(B "modifiers" 13 91 111 2 2 [(B "modifier" 14 91 98 2 2 [(B "private" 15 91 98 2 2 [(A "private" 16 91 98 2 2 [])])]); (B "modifier" 17 99 105 2 2 [(B "static" 18 99 105 2 2 [(A "static" 19 99 105 2 2 [])])]); (B "modifier" 20 106 111 2 2 [(B "final" 21 106 111 2 2 [(A "final" 22 106 111 2 2 [])])])]); (B "type_identifier" 23 114 121 2 2 [] # "type"); (B "variable_declarator" 24 122 128 2 2 [(B "identifier" 25 122 128 2 2 [] # "name")] # "declarator"); (A ";" 26 130 131 2 2 [])]); (A "}" 27 136 137 4 4 [])] # "body")])]).
Example prettier80_li1 : as_expected prettier80_li1_source prettier80_li1_tree (U "public class OuterClass {
  // Static final variable (constant) " ++ [8211%N] ++ U " outer class level only
  private static final Integer MY_INT;
}
").
Proof. apply run_test_ok. vm_compute. reflexivity. Qed.

(* tests/prettier80/li3.in *)
Definition prettier80_li3_source : ustr := U "public with sharing class MyClass {





  public void hello1(String s  , Intgeter ii ) {


          Integer a,b     =     1    ;


  String    k='he' ;






  }
}

".
Definition prettier80_li3_tree : span := (B "parser_output" 1 0 167 0 22 [(B "class_declaration" 2 0 165 0 20 [(B "modifiers" 3 0 19 0 0 [(B "modifier" 4 0 6 0 0 [(B "public" 5 0 6 0 0 [(A "public" 6 0 6 0 0 [])])]); (B "modifier" 7 7 19 0 0 [(B "with_sharing" 8 7 19 0 0 [(A "with" 9 7 11 0 0 []); (A "sharing" 10 12 19 0 0 [])])])]); (A "class" 11 20 25 0 0 []); (B "identifier" 12 26 33 0 0 [] # "name"); (B "class_body" 13 34 165 0 20 [(A "{" 14 34 35 0 0 []); (B "method_declaration" 15 43 163 6 19 [(B "modifiers" 16 43 49 6 6 [(B "modifier" 17 43 49 6 6 [(B "public" 18 43 49 6 6 [(A "public" 19 43 49 6 6 [])])])]); (B "void_type" 20 50 54 6 6 [] # "type"); (B "identifier" 21 55 61 6 6 [] # "name"); (B "formal_parameters" 22 61 87 6 6 [(A "(" 23 61 62 6 6 []); (B "formal_parameter" 24 62 70 6 6 [(B "type_identifier" 25 62 68 6 6 [] # "type"); (B "identifier" 26 69 70 6 6 [] # "name")]); (A "," 27 72 73 6 6 []); (B "formal_parameter" 28 74 85 6 6 [(B "type_identifier" 29 74 82 6 6 [] # "type"); (B "identifier" 30 83 85 6 6 [] # "name")]); (A ")" 31 86 87 6 6 [])] # "parameters"); (B "block" 32 88 163 6 19 [(A "{" 33 88 89 6 6 []); (B "local_variable_declaration" 34 102 130 9 9 [(B "type_identifier" 35 102 109 9 9 [] # "type"); (B "variable_declarator" 36 110 111 9 9 [(B "identifier" 37 110 111 9 9 [] # "name")] # "declarator"); (A "," 38 111 112 9 9 []); (B "variable_declarator" 39 112 125 9 9 [(B "identifier" 40 112 113 9 9 [] # "name"); (B "assignment_operator" 41 118 119 9 9 [(A "=" 42 118 119 9 9 [])]); (B "int" 43 124 125 9 9 [] # "value")] # "declarator"); (A ";" 44 129 130 9 9 [])]); (B "local_variable_declaration" 45 135 153 12 12 [(B "type_identifier" 46 135 141 12 12 [] # "type"); (B "variable_declarator" 47 145 151 12 12 [(B "identifier" 48 145 146 12 12 [] # "name"); (B "assignment_operator" 49 146 147 12 12 [(A "=" 50 146 147 12 12 [])]); (B "string_literal" 51 147 151 12 12 [] # "value")] # "declarator"); (A ";" 52 152 153 12 12 [])]); (A "}" 53 162 163 19 19 [])] # "body")]); (A "}" 54 164 165 20 20 [])] # "body")])]).
Example prettier80_li3 : as_expected prettier80_li3_source prettier80_li3_tree (U "public with sharing class MyClass {
  public void hello1(String s, Intgeter ii) {
    Integer a, b = 1;

    String k = 'he';
  }
}
").
Proof. apply run_test_ok. vm_compute. reflexivity. Qed.

(* tests/prettier80/local_variable_declar.in *)
Definition prettier80_local_variable_declar_source : ustr := U "class MeClass {
  {
    String aaaaaa, bbbbbbbb, cccccc, ddddddddddddddddd, fffffffffffffff, gggggg;
  }
}
".
Definition prettier80_local_variable_declar_tree : span := (B "parser_output" 1 0 107 0 5 [(B "class_declaration" 2 0 106 0 4 [(A "class" 3 0 5 0 0 []); (B "identifier" 4 6 13 0 0 [] # "name"); (B "class_body" 5 14 106 0 4 [(A "{" 6 14 15 0 0 []); (B "block" 7 18 104 1 3 [(A "{" 8 18 19 1 1 []); (B "local_variable_declaration" 9 24 100 2 2 [(B "type_identifier" 10 24 30 2 2 [] # "type"); (B "variable_declarator" 11 31 37 2 2 [(B "identifier" 12 31 37 2 2 [] # "name")] # "declarator"); (A "," 13 37 38 2 2 []); (B "variable_declarator" 14 39 47 2 2 [(B "identifier" 15 39 47 2 2 [] # "name")] # "declarator"); (A "," 16 47 48 2 2 []); (B "variable_declarator" 17 49 55 2 2 [(B "identifier" 18 49 55 2 2 [] # "name")] # "declarator"); (A "," 19 55 56 2 2 []); (B "variable_declarator" 20 57 74 2 2 [(B "identifier" 21 57 74 2 2 [] # "name")] # "declarator"); (A "," 22 74 75 2 2 []); (B "variable_declarator" 23 76 91 2 2 [(B "identifier" 24 76 91 2 2 [] # "name")] # "declarator"); (A "," 25 91 92 2 2 []); (B "variable_declarator" 26 93 99 2 2 [(B "identifier" 27 93 99 2 2 [] # "name")] # "declarator"); (A ";" 28 99 100 2 2 [])]); (A "}" 29 103 104 3 3 [])]); (A "}" 30 105 106 4 4 [])] # "body")])]).
Example prettier80_local_variable_declar : as_expected prettier80_local_variable_declar_source prettier80_local_variable_declar_tree (U "class MeClass {
  {
    String aaaaaa, bbbbbbbb, cccccc, ddddddddddddddddd, fffffffffffffff, gggggg;
  }
}
").
Proof. apply run_test_ok. vm_compute. reflexivity. Qed.

(* tests/prettier80/m1.in *)
Definition prettier80_m1_source : ustr := U "public with sharing     class        MyClass {

private static void run()  {

          33;
}
}


".
Definition prettier80_m1_tree : span := (B "parser_output" 1 0 98 0 9 [(B "class_declaration" 2 0 95 0 6 [(B "modifiers" 3 0 19 0 0 [(B "modifier" 4 0 6 0 0 [(B "public" 5 0 6 0 0 [(A "public" 6 0 6 0 0 [])])]); (B "modifier" 7 7 19 0 0 [(B "with_sharing" 8 7 19 0 0 [(A "with" 9 7 11 0 0 []); (A "sharing" 10 12 19 0 0 [])])])]); (A "class" 11 24 29 0 0 []); (B "identifier" 12 37 44 0 0 [] # "name"); (B "class_body" 13 45 95 0 6 [(A "{" 14 45 46 0 0 []); (B "method_declaration" 15 48 93 2 5 [(B "modifiers" 16 48 62 2 2 [(B "modifier" 17 48 55 2 2 [(B "private" 18 48 55 2 2 [(A "private" 19 48 55 2 2 [])])]); (B "modifier" 20 56 62 2 2 [(B "static" 21 56 62 2 2 [(A "static" 22 56 62 2 2 [])])])]); (B "void_type" 23 63 67 2 2 [] # "type"); (B "identifier" 24 68 71 2 2 [] # "name"); (B "formal_parameters" 25 71 73 2 2 [(A "(" 26 71 72 2 2 []); (A ")" 27 72 73 2 2 [])] # "parameters"); (B "block" 28 75 93 2 5 [(A "{" 29 75 76 2 2 []); (B "expression_statement" 30 88 91 4 4 [(B "int" 31 88 90 4 4 []); (A ";" 32 90 91 4 4 [])]); (A "}" 33 92 93 5 5 [])] # "body")]); (A "}" 34 94 95 6 6 [])] # "body")])]).
Example prettier80_m1 : as_expected prettier80_m1_source prettier80_m1_tree (U "public with sharing class MyClass {
  private static void run() {
    33;
  }
}
").
Proof. apply run_test_ok. vm_compute. reflexivity. Qed.

(* tests/prettier80/m2.in *)
Definition prettier80_m2_source : ustr := U "public with sharing     class        MyClass {

private static void run(String k,    Integer     i)  {
}
  }


".
Definition prettier80_m2_tree : span := (B "parser_output" 1 0 111 0 7 [(B "class_declaration" 2 0 108 0 4 [(B "modifiers" 3 0 19 0 0 [(B "modifier" 4 0 6 0 0 [(B "public" 5 0 6 0 0 [(A "public" 6 0 6 0 0 [])])]); (B "modifier" 7 7 19 0 0 [(B "with_sharing" 8 7 19 0 0 [(A "with" 9 7 11 0 0 []); (A "sharing" 10 12 19 0 0 [])])])]); (A "class" 11 24 29 0 0 []); (B "identifier" 12 37 44 0 0 [] # "name"); (B "class_body" 13 45 108 0 4 [(A "{" 14 45 46 0 0 []); (B "method_declaration" 15 48 104 2 3 [(B "modifiers" 16 48 62 2 2 [(B "modifier" 17 48 55 2 2 [(B "private" 18 48 55 2 2 [(A "private" 19 48 55 2 2 [])])]); (B "modifier" 20 56 62 2 2 [(B "static" 21 56 62 2 2 [(A "static" 22 56 62 2 2 [])])])]); (B "void_type" 23 63 67 2 2 [] # "type"); (B "identifier" 24 68 71 2 2 [] # "name"); (B "formal_parameters" 25 71 99 2 2 [(A "(" 26 71 72 2 2 []); (B "formal_parameter" 27 72 80 2 2 [(B "type_identifier" 28 72 78 2 2 [] # "type"); (B "identifier" 29 79 80 2 2 [] # "name")]); (A "," 30 80 81 2 2 []); (B "formal_parameter" 31 85 98 2 2 [(B "type_identifier" 32 85 92 2 2 [] # "type"); (B "identifier" 33 97 98 2 2 [] # "name")]); (A ")" 34 98 99 2 2 [])] # "parameters"); (B "block" 35 101 104 2 3 [(A "{" 36 101 102 2 2 []); (A "}" 37 103 104 3 3 [])] # "body")]); (A "}" 38 107 108 4 4 [])] # "body")])]).
Example prettier80_m2 : as_expected prettier80_m2_source prettier80_m2_tree (U "public with sharing class MyClass {
  private static void run(String k, Integer i) {
  }
}
").
Proof. apply run_test_ok. vm_compute. reflexivity. Qed.

(* tests/prettier80/m3.in *)
Definition prettier80_m3_source : ustr := U "public with sharing class MyClass {
  public void hello1(String s  , Intgeter ii ) {
      Integer a,b     =     1    ;
      String    k='he' ;
  }
}
".
Definition prettier80_m3_tree : span := (B "parser_output" 1 0 151 0 6 [(B "class_declaration" 2 0 150 0 5 [(B "modifiers" 3 0 19 0 0 [(B "modifier" 4 0 6 0 0 [(B "public" 5 0 6 0 0 [(A "public" 6 0 6 0 0 [])])]); (B "modifier" 7 7 19 0 0 [(B "with_sharing" 8 7 19 0 0 [(A "with" 9 7 11 0 0 []); (A "sharing" 10 12 19 0 0 [])])])]); (A "class" 11 20 25 0 0 []); (B "identifier" 12 26 33 0 0 [] # "name"); (B "class_body" 13 34 150 0 5 [(A "{" 14 34 35 0 0 []); (B "method_declaration" 15 38 148 1 4 [(B "modifiers" 16 38 44 1 1 [(B "modifier" 17 38 44 1 1 [(B "public" 18 38 44 1 1 [(A "public" 19 38 44 1 1 [])])])]); (B "void_type" 20 45 49 1 1 [] # "type"); (B "identifier" 21 50 56 1 1 [] # "name"); (B "formal_parameters" 22 56 82 1 1 [(A "(" 23 56 57 1 1 []); (B "formal_parameter" 24 57 65 1 1 [(B "type_identifier" 25 57 63 1 1 [] # "type"); (B "identifier" 26 64 65 1 1 [] # "name")]); (A "," 27 67 68 1 1 []); (B "formal_parameter" 28 69 80 1 1 [(B "type_identifier" 29 69 77 1 1 [] # "type"); (B "identifier" 30 78 80 1 1 [] # "name")]); (A ")" 31 81 82 1 1 [])] # "parameters"); (B "block" 32 83 148 1 4 [(A "{" 33 83 84 1 1 []); (B "local_variable_declaration" 34 91 119 2 2 [(B "type_identifier" 35 91 98 2 2 [] # "type"); (B "variable_declarator" 36 99 100 2 2 [(B "identifier" 37 99 100 2 2 [] # "name")] # "declarator"); (A "," 38 100 101 2 2 []); (B "variable_declarator" 39 101 114 2 2 [(B "identifier" 40 101 102 2 2 [] # "name"); (B "assignment_operator" 41 107 108 2 2 [(A "=" 42 107 108 2 2 [])]); (B "int" 43 113 114 2 2 [] # "value")] # "declarator"); (A ";" 44 118 119 2 2 [])]); (B "local_variable_declaration" 45 126 144 3 3 [(B "type_identifier" 46 126 132 3 3 [] # "type"); (B "variable_declarator" 47 136 142 3 3 [(B "identifier" 48 136 137 3 3 [] # "name"); (B "assignment_operator" 49 137 138 3 3 [(A "=" 50 137 138 3 3 [])]); (B "string_literal" 51 138 142 3 3 [] # "value")] # "declarator"); (A ";" 52 143 144 3 3 [])]); (A "}" 53 147 148 4 4 [])] # "body")]); (A "}" 54 149 150 5 5 [])] # "body")])]).
Example prettier80_m3 : as_expected prettier80_m3_source prettier80_m3_tree (U "public with sharing class MyClass {
  public void hello1(String s, Intgeter ii) {
    Integer a, b = 1;
    String k = 'he';
  }
}
").
Proof. apply run_test_ok. vm_compute. reflexivity. Qed.

(* tests/prettier80/m4.in *)
Definition prettier80_m4_source : ustr := U "public with sharing class MyClass {
    public void hello(String s ,  
        Intgeter i1, Intgeter    i2  ,       Intgeter   i3, String sack  ) {
    }
}

".
Definition prettier80_m4_tree : span := (B "parser_output" 1 0 157 0 6 [(B "class_declaration" 2 0 155 0 4 [(B "modifiers" 3 0 19 0 0 [(B "modifier" 4 0 6 0 0 [(B "public" 5 0 6 0 0 [(A "public" 6 0 6 0 0 [])])]); (B "modifier" 7 7 19 0 0 [(B "with_sharing" 8 7 19 0 0 [(A "with" 9 7 11 0 0 []); (A "sharing" 10 12 19 0 0 [])])])]); (A "class" 11 20 25 0 0 []); (B "identifier" 12 26 33 0 0 [] # "name"); (B "class_body" 13 34 155 0 4 [(A "{" 14 34 35 0 0 []); (B "method_declaration" 15 40 153 1 3 [(B "modifiers" 16 40 46 1 1 [(B "modifier" 17 40 46 1 1 [(B "public" 18 40 46 1 1 [(A "public" 19 40 46 1 1 [])])])]); (B "void_type" 20 47 51 1 1 [] # "type"); (B "identifier" 21 52 57 1 1 [] # "name"); (B "formal_parameters" 22 57 145 1 2 [(A "(" 23 57 58 1 1 []); (B "formal_parameter" 24 58 66 1 1 [(B "type_identifier" 25 58 64 1 1 [] # "type"); (B "identifier" 26 65 66 1 1 [] # "name")]); (A "," 27 67 68 1 1 []); (B "formal_parameter" 28 79 90 2 2 [(B "type_identifier" 29 79 87 2 2 [] # "type"); (B "identifier" 30 88 90 2 2 [] # "name")]); (A "," 31 90 91 2 2 []); (B "formal_parameter" 32 92 106 2 2 [(B "type_identifier" 33 92 100 2 2 [] # "type"); (B "identifier" 34 104 106 2 2 [] # "name")]); (A "," 35 108 109 2 2 []); (B "formal_parameter" 36 116 129 2 2 [(B "type_identifier" 37 116 124 2 2 [] # "type"); (B "identifier" 38 127 129 2 2 [] # "name")]); (A "," 39 129 130 2 2 []); (B "formal_parameter" 40 131 142 2 2 [(B "type_identifier" 41 131 137 2 2 [] # "type"); (B "identifier" 42 138 142 2 2 [] # "name")]); (A ")" 43 144 145 2 2 [])] # "parameters"); (B "block" 44 146 153 2 3 [(A "{" 45 146 147 2 2 []); (A "}" 46 152 153 3 3 [])] # "body")]); (A "}" 47 154 155 4 4 [])] # "body")])]).
Example prettier80_m4 : as_expected prettier80_m4_source prettier80_m4_tree (U "public with sharing class MyClass {
  public void hello(
    String s,
    Intgeter i1,
    Intgeter i2,
    Intgeter i3,
    String sack
  ) {
  }
}
").
Proof. apply run_test_ok. vm_compute. reflexivity. Qed.

(* tests/prettier80/m5.in *)
Definition prettier80_m5_source : ustr := U "public with sharing class MyClass {
 
  public void hello() {
          Boolean c = true;
          c    == 
            true;
}
}

".
Definition prettier80_m5_tree : span := (B "parser_output" 1 0 132 0 9 [(B "class_declaration" 2 0 130 0 7 [(B "modifiers" 3 0 19 0 0 [(B "modifier" 4 0 6 0 0 [(B "public" 5 0 6 0 0 [(A "public" 6 0 6 0 0 [])])]); (B "modifier" 7 7 19 0 0 [(B "with_sharing" 8 7 19 0 0 [(A "with" 9 7 11 0 0 []); (A "sharing" 10 12 19 0 0 [])])])]); (A "class" 11 20 25 0 0 []); (B "identifier" 12 26 33 0 0 [] # "name"); (B "class_body" 13 34 130 0 7 [(A "{" 14 34 35 0 0 []); (B "method_declaration" 15 40 128 2 6 [(B "modifiers" 16 40 46 2 2 [(B "modifier" 17 40 46 2 2 [(B "public" 18 40 46 2 2 [(A "public" 19 40 46 2 2 [])])])]); (B "void_type" 20 47 51 2 2 [] # "type"); (B "identifier" 21 52 57 2 2 [] # "name"); (B "formal_parameters" 22 57 59 2 2 [(A "(" 23 57 58 2 2 []); (A ")" 24 58 59 2 2 [])] # "parameters"); (B "block" 25 60 128 2 6 [(A "{" 26 60 61 2 2 []); (B "local_variable_declaration" 27 72 89 3 3 [(B "type_identifier" 28 72 79 3 3 [] # "type"); (B "variable_declarator" 29 80 88 3 3 [(B "identifier" 30 80 81 3 3 [] # "name"); (B "assignment_operator" 31 82 83 3 3 [(A "=" 32 82 83 3 3 [])]); (B "boolean" 33 84 88 3 3 [(A "true" 34 84 88 3 3 [])] # "value")] # "declarator"); (A ";" 35 88 89 3 3 [])]); (B "expression_statement" 36 100 126 4 5 [(B "binary_expression" 37 100 125 4 5 [(B "identifier" 38 100 101 4 4 [] # "left"); (A "==" 39 105 107 4 4 [] # "operator"); (B "boolean" 40 121 125 5 5 [(A "true" 41 121 125 5 5 [])] # "right")]); (A ";" 42 125 126 5 5 [])]); (A "}" 43 127 128 6 6 [])] # "body")]); (A "}" 44 129 130 7 7 [])] # "body")])]).
Example prettier80_m5 : as_expected prettier80_m5_source prettier80_m5_tree (U "public with sharing class MyClass {
  public void hello() {
    Boolean c = true;
    c == true;
  }
}
").
Proof. apply run_test_ok. vm_compute. reflexivity. Qed.

(* tests/prettier80/m6.in *)
Definition prettier80_m6_source : ustr := U "public class OuterClass {
  public static Integer getInt() {
      return;
    }
  }

".
Definition prettier80_m6_tree : span := (B "parser_output" 1 0 86 0 6 [(B "class_declaration" 2 0 84 0 4 [(B "modifiers" 3 0 6 0 0 [(B "modifier" 4 0 6 0 0 [(B "public" 5 0 6 0 0 [(A "public" 6 0 6 0 0 [])])])]); (A "class" 7 7 12 0 0 []); (B "identifier" 8 13 23 0 0 [] # "name"); (B "class_body" 9 24 84 0 4 [(A "{" 10 24 25 0 0 []); (B "method_declaration" 11 28 80 1 3 [(B "modifiers" 12 28 41 1 1 [(B "modifier" 13 28 34 1 1 [(B "public" 14 28 34 1 1 [(A "public" 15 28 34 1 1 [])])]); (B "modifier" 16 35 41 1 1 [(B "static" 17 35 41 1 1 [(A "static" 18 35 41 1 1 [])])])]); (B "type_identifier" 19 42 49 1 1 [] # "type"); (B "identifier" 20 50 56 1 1 [] # "name"); (B "formal_parameters" 21 56 58 1 1 [(A "(" 22 56 57 1 1 []); (A ")" 23 57 58 1 1 [])] # "parameters"); (B "block" 24 59 80 1 3 [(A "{" 25 59 60 1 1 []); (B "return_statement" 26 67 74 2 2 [(A "return" 27 67 73 2 2 []); (A ";" 28 73 74 2 2 [])]); (A "}" 29 79 80 3 3 [])] # "body")]); (A "}" 30 83 84 4 4 [])] # "body")])]).
Example prettier80_m6 : as_expected prettier80_m6_source prettier80_m6_tree (U "public class OuterClass {
  public static Integer getInt() {
    return;
  }
}
").
Proof. apply run_test_ok. vm_compute. reflexivity. Qed.

(* tests/prettier80/m7.in *)
Definition prettier80_m7_source : ustr := U "public class OuterClass {
  public static Integer getInt() {
      return 
        33 ;
      }
  }


".
Definition prettier80_m7_tree : span := (B "parser_output" 1 0 102 0 8 [(B "class_declaration" 2 0 99 0 5 [(B "modifiers" 3 0 6 0 0 [(B "modifier" 4 0 6 0 0 [(B "public" 5 0 6 0 0 [(A "public" 6 0 6 0 0 [])])])]); (A "class" 7 7 12 0 0 []); (B "identifier" 8 13 23 0 0 [] # "name"); (B "class_body" 9 24 99 0 5 [(A "{" 10 24 25 0 0 []); (B "method_declaration" 11 28 95 1 4 [(B "modifiers" 12 28 41 1 1 [(B "modifier" 13 28 34 1 1 [(B "public" 14 28 34 1 1 [(A "public" 15 28 34 1 1 [])])]); (B "modifier" 16 35 41 1 1 [(B "static" 17 35 41 1 1 [(A "static" 18 35 41 1 1 [])])])]); (B "type_identifier" 19 42 49 1 1 [] # "type"); (B "identifier" 20 50 56 1 1 [] # "name"); (B "formal_parameters" 21 56 58 1 1 [(A "(" 22 56 57 1 1 []); (A ")" 23 57 58 1 1 [])] # "parameters"); (B "block" 24 59 95 1 4 [(A "{" 25 59 60 1 1 []); (B "return_statement" 26 67 87 2 3 [(A "return" 27 67 73 2 2 []); (B "int" 28 83 85 3 3 []); (A ";" 29 86 87 3 3 [])]); (A "}" 30 94 95 4 4 [])] # "body")]); (A "}" 31 98 99 5 5 [])] # "body")])]).
Example prettier80_m7 : as_expected prettier80_m7_source prettier80_m7_tree (U "public class OuterClass {
  public static Integer getInt() {
    return 33;
  }
}
").
Proof. apply run_test_ok. vm_compute. reflexivity. Qed.

(* tests/prettier80/m8.in *)
Definition prettier80_m8_source : ustr := U "public class OuterClass {
  public static Integer getInt() {
    return   hello  (

    )
          ;
  }
}
".
Definition prettier80_m8_tree : span := (B "parser_output" 1 0 108 0 8 [(B "class_declaration" 2 0 107 0 7 [(B "modifiers" 3 0 6 0 0 [(B "modifier" 4 0 6 0 0 [(B "public" 5 0 6 0 0 [(A "public" 6 0 6 0 0 [])])])]); (A "class" 7 7 12 0 0 []); (B "identifier" 8 13 23 0 0 [] # "name"); (B "class_body" 9 24 107 0 7 [(A "{" 10 24 25 0 0 []); (B "method_declaration" 11 28 105 1 6 [(B "modifiers" 12 28 41 1 1 [(B "modifier" 13 28 34 1 1 [(B "public" 14 28 34 1 1 [(A "public" 15 28 34 1 1 [])])]); (B "modifier" 16 35 41 1 1 [(B "static" 17 35 41 1 1 [(A "static" 18 35 41 1 1 [])])])]); (B "type_identifier" 19 42 49 1 1 [] # "type"); (B "identifier" 20 50 56 1 1 [] # "name"); (B "formal_parameters" 21 56 58 1 1 [(A "(" 22 56 57 1 1 []); (A ")" 23 57 58 1 1 [])] # "parameters"); (B "block" 24 59 105 1 6 [(A "{" 25 59 60 1 1 []); (B "return_statement" 26 65 101 2 5 [(A "return" 27 65 71 2 2 []); (B "method_invocation" 28 74 89 2 4 [(B "identifier" 29 74 79 2 2 [] # "name"); (B "argument_list" 30 81 89 2 4 [(A "(" 31 81 82 2 2 []); (A ")" 32 88 89 4 4 [])] # "arguments")]); (A ";" 33 100 101 5 5 [])]); (A "}" 34 104 105 6 6 [])] # "body")]); (A "}" 35 106 107 7 7 [])] # "body")])]).
Example prettier80_m8 : as_expected prettier80_m8_source prettier80_m8_tree (U "public class OuterClass {
  public static Integer getInt() {
    return hello();
  }
}
").
Proof. apply run_test_ok. vm_compute. reflexivity. Qed.

(* tests/prettier80/method_chain_method_argument.in *)
Definition prettier80_method_chain_method_argument_source : ustr := U "class A {
  {
    a2aaaaaaaaaaaaaaaaaa
      .bbbbbbbbbbbbbbbbbbbb()
      .cccccccccccccccccccccc(
        aaaaaaaaaaaaaaaaaaaaaaaaaaaaaaaa()
          .bbbbbbbbbbbbbbbbbbbbbbbbbb()
          .ccccccccccccccccccc(
            a(
              kkkkkkkkkkkkkkkkkkkkkk(),
              cccccccccccccccccccccccccccccccccccccccccccccc()
            ),
            mmmmmmmmmmmmmmmmmmmmmmmmmmmmm()
          )
      )
      .ddddddddddddddddddddddddddddddd();
  }
}
".
Definition prettier80_method_chain_method_argument_tree : span := (B "parser_output" 1 0 460 0 18 [(B "class_declaration" 2 0 459 0 17 [(A "class" 3 0 5 0 0 []); (B "identifier" 4 6 7 0 0 [] # "name"); (B "class_body" 5 8 459 0 17 [(A "{" 6 8 9 0 0 []); (B "block" 7 12 457 1 16 [(A "{" 8 12 13 1 1 []); (B "expression_statement" 9 18 453 2 15 [(B "method_invocation" 10 18 452 2 15 [(B "method_invocation" 11 18 411 2 14 [(B "method_invocation" 12 18 68 2 3 [(B "identifier" 13 18 38 2 2 [] # "object"); (A "." 14 45 46 3 3 []); (B "identifier" 15 46 66 3 3 [] # "name"); (B "argument_list" 16 66 68 3 3 [(A "(" 17 66 67 3 3 []); (A ")" 18 67 68 3 3 [])] # "arguments")] # "object"); (A "." 19 75 76 4 4 []); (B "identifier" 20 76 98 4 4 [] # "name"); (B "argument_list" 21 98 411 4 14 [(A "(" 22 98 99 4 4 []); (B "method_invocation" 23 108 403 5 13 [(B "method_invocation" 24 108 182 5 6 [(B "method_invocation" 25 108 142 5 5 [(B "identifier" 26 108 140 5 5 [] # "name"); (B "argument_list" 27 140 142 5 5 [(A "(" 28 140 141 5 5 []); (A ")" 29 141 142 5 5 [])] # "arguments")] # "object"); (A "." 30 153 154 6 6 []); (B "identifier" 31 154 180 6 6 [] # "name"); (B "argument_list" 32 180 182 6 6 [(A "(" 33 180 181 6 6 []); (A ")" 34 181 182 6 6 [])] # "arguments")] # "object"); (A "." 35 193 194 7 7 []); (B "identifier" 36 194 213 7 7 [] # "name"); (B "argument_list" 37 213 403 7 13 [(A "(" 38 213 214 7 7 []); (B "method_invocation" 39 227 346 8 11 [(B "identifier" 40 227 228 8 8 [] # "name"); (B "argument_list" 41 228 346 8 11 [(A "(" 42 228 229 8 8 []); (B "method_invocation" 43 244 268 9 9 [(B "identifier" 44 244 266 9 9 [] # "name"); (B "argument_list" 45 266 268 9 9 [(A "(" 46 266 267 9 9 []); (A ")" 47 267 268 9 9 [])] # "arguments")]); (A "," 48 268 269 9 9 []); (B "method_invocation" 49 284 332 10 10 [(B "identifier" 50 284 330 10 10 [] # "name"); (B "argument_list" 51 330 332 10 10 [(A "(" 52 330 331 10 10 []); (A ")" 53 331 332 10 10 [])] # "arguments")]); (A ")" 54 345 346 11 11 [])] # "arguments")]); (A "," 55 346 347 11 11 []); (B "method_invocation" 56 360 391 12 12 [(B "identifier" 57 360 389 12 12 [] # "name"); (B "argument_list" 58 389 391 12 12 [(A "(" 59 389 390 12 12 []); (A ")" 60 390 391 12 12 [])] # "arguments")]); (A ")" 61 402 403 13 13 [])] # "arguments")]); (A ")" 62 410 411 14 14 [])] # "arguments")] # "object"); (A "." 63 418 419 15 15 []); (B "identifier" 64 419 450 15 15 [] # "name"); (B "argument_list" 65 450 452 15 15 [(A "(" 66 450 451 15 15 []); (A ")" 67 451 452 15 15 [])] # "arguments")]); (A ";" 68 452 453 15 15 [])]); (A "}" 69 456 457 16 16 [])]); (A "}" 70 458 459 17 17 [])] # "body")])]).
Example prettier80_method_chain_method_argument : as_expected prettier80_method_chain_method_argument_source prettier80_method_chain_method_argument_tree (U "class A {
  {
    a2aaaaaaaaaaaaaaaaaa
      .bbbbbbbbbbbbbbbbbbbb()
      .cccccccccccccccccccccc(
        aaaaaaaaaaaaaaaaaaaaaaaaaaaaaaaa()
          .bbbbbbbbbbbbbbbbbbbbbbbbbb()
          .ccccccccccccccccccc(
            a(
              kkkkkkkkkkkkkkkkkkkkkk(),
              cccccccccccccccccccccccccccccccccccccccccccccc()
            ),
            mmmmmmmmmmmmmmmmmmmmmmmmmmmmm()
          )
      )
      .ddddddddddddddddddddddddddddddd();
  }
}
").
Proof. apply run_test_ok. vm_compute. reflexivity. Qed.

(* tests/prettier80/method_invocation_wrap.in *)
Definition prettier80_method_invocation_wrap_source : ustr := U "class S {
  {
    System.debug('111111111111111111111111111111111111111111111111111111111111111111111111111111111111111111111111111111111111111111111111111111111111111111111111111111111111');

    System.debug('Matches count: ' + city?.countMatches('San Francisco') ?? 100000000);
  }
}
".
Definition prettier80_method_invocation_wrap_tree : span := (B "parser_output" 1 0 287 0 7 [(B "class_declaration" 2 0 286 0 6 [(A "class" 3 0 5 0 0 []); (B "identifier" 4 6 7 0 0 [] # "name"); (B "class_body" 5 8 286 0 6 [(A "{" 6 8 9 0 0 []); (B "block" 7 12 284 1 5 [(A "{" 8 12 13 1 1 []); (B "expression_statement" 9 18 191 2 2 [(B "method_invocation" 10 18 190 2 2 [(B "identifier" 11 18 24 2 2 [] # "object"); (A "." 12 24 25 2 2 []); (B "identifier" 13 25 30 2 2 [] # "name"); (B "argument_list" 14 30 190 2 2 [(A "(" 15 30 31 2 2 []); (B "string_literal" 16 31 189 2 2 []); (A ")" 17 189 190 2 2 [])] # "arguments")]); (A ";" 18 190 191 2 2 [])]); (B "expression_statement" 19 197 280 4 4 [(B "method_invocation" 20 197 279 4 4 [(B "identifier" 21 197 203 4 4 [] # "object"); (A "." 22 203 204 4 4 []); (B "identifier" 23 204 209 4 4 [] # "name"); (B "argument_list" 24 209 279 4 4 [(A "(" 25 209 210 4 4 []); (B "binary_expression" 26 210 278 4 4 [(B "binary_expression" 27 210 265 4 4 [(B "string_literal" 28 210 227 4 4 [] # "left"); (A "+" 29 228 229 4 4 [] # "operator"); (B "method_invocation" 30 230 265 4 4 [(B "identifier" 31 230 234 4 4 [] # "object"); (B "safe_navigation_operator" 32 234 236 4 4 [(A "?." 33 234 236 4 4 [])]); (B "identifier" 34 236 248 4 4 [] # "name"); (B "argument_list" 35 248 265 4 4 [(A "(" 36 248 249 4 4 []); (B "string_literal" 37 249 264 4 4 []); (A ")" 38 264 265 4 4 [])] # "arguments")] # "right")] # "left"); (A "??" 39 266 268 4 4 [] # "operator"); (B "int" 40 269 278 4 4 [] # "right")]); (A ")" 41 278 279 4 4 [])] # "arguments")]); (A ";" 42 279 280 4 4 [])]); (A "}" 43 283 284 5 5 [])]); (A "}" 44 285 286 6 6 [])] # "body")])]).
Example prettier80_method_invocation_wrap : as_expected prettier80_method_invocation_wrap_source prettier80_method_invocation_wrap_tree (U "class S {
  {
    System.debug(
      '111111111111111111111111111111111111111111111111111111111111111111111111111111111111111111111111111111111111111111111111111111111111111111111111111111111111'
    );

    System.debug(
      'Matches count: ' + city?.countMatches('San Francisco') ?? 100000000
    );
  }
}
").
Proof. apply run_test_ok. vm_compute. reflexivity. Qed.

(* tests/prettier80/method_wrap80.in *)
Definition prettier80_method_wrap80_source : ustr := U "class LongParam {
  public static String sayHelloWithModifier(String helloStringA, Integer inte) {
    return null;
  }
}

".
Definition prettier80_method_wrap80_tree : span := (B "parser_output" 1 0 123 0 6 [(B "class_declaration" 2 0 121 0 4 [(A "class" 3 0 5 0 0 []); (B "identifier" 4 6 15 0 0 [] # "name"); (B "class_body" 5 16 121 0 4 [(A "{" 6 16 17 0 0 []); (B "method_declaration" 7 20 119 1 3 [(B "modifiers" 8 20 33 1 1 [(B "modifier" 9 20 26 1 1 [(B "public" 10 20 26 1 1 [(A "public" 11 20 26 1 1 [])])]); (B "modifier" 12 27 33 1 1 [(B "static" 13 27 33 1 1 [(A "static" 14 27 33 1 1 [])])])]); (B "type_identifier" 15 34 40 1 1 [] # "type"); (B "identifier" 16 41 61 1 1 [] # "name"); (B "formal_parameters" 17 61 96 1 1 [(A "(" 18 61 62 1 1 []); (B "formal_parameter" 19 62 81 1 1 [(B "type_identifier" 20 62 68 1 1 [] # "type"); (B "identifier" 21 69 81 1 1 [] # "name")]); (A "," 22 81 82 1 1 []); (B "formal_parameter" 23 83 95 1 1 [(B "type_identifier" 24 83 90 1 1 [] # "type"); (B "identifier" 25 91 95 1 1 [] # "name")]); (A ")" 26 95 96 1 1 [])] # "parameters"); (B "block" 27 97 119 1 3 [(A "{" 28 97 98 1 1 []); (B "return_statement" 29 103 115 2 2 [(A "return" 30 103 109 2 2 []); (B "null_literal" 31 110 114 2 2 []); (A ";" 32 114 115 2 2 [])]); (A "}" 33 118 119 3 3 [])] # "body")]); (A "}" 34 120 121 4 4 [])] # "body")])]).
Example prettier80_method_wrap80 : as_expected prettier80_method_wrap80_source prettier80_method_wrap80_tree (U "class LongParam {
  public static String sayHelloWithModifier(String helloStringA, Integer inte) {
    return null;
  }
}
").
Proof. apply run_test_ok. vm_compute. reflexivity. Qed.

(* tests/prettier80/method_wrap81.in *)
Definition prettier80_method_wrap81_source : ustr := U "class LongParam {
  public static String sayHelloWithModifier(String helloStringA, Integer inte1) {
    return null;
  }
}

".
Definition prettier80_method_wrap81_tree : span := (B "parser_output" 1 0 124 0 6 [(B "class_declaration" 2 0 122 0 4 [(A "class" 3 0 5 0 0 []); (B "identifier" 4 6 15 0 0 [] # "name"); (B "class_body" 5 16 122 0 4 [(A "{" 6 16 17 0 0 []); (B "method_declaration" 7 20 120 1 3 [(B "modifiers" 8 20 33 1 1 [(B "modifier" 9 20 26 1 1 [(B "public" 10 20 26 1 1 [(A "public" 11 20 26 1 1 [])])]); (B "modifier" 12 27 33 1 1 [(B "static" 13 27 33 1 1 [(A "static" 14 27 33 1 1 [])])])]); (B "type_identifier" 15 34 40 1 1 [] # "type"); (B "identifier" 16 41 61 1 1 [] # "name"); (B "formal_parameters" 17 61 97 1 1 [(A "(" 18 61 62 1 1 []); (B "formal_parameter" 19 62 81 1 1 [(B "type_identifier" 20 62 68 1 1 [] # "type"); (B "identifier" 21 69 81 1 1 [] # "name")]); (A "," 22 81 82 1 1 []); (B "formal_parameter" 23 83 96 1 1 [(B "type_identifier" 24 83 90 1 1 [] # "type"); (B "identifier" 25 91 96 1 1 [] # "name")]); (A ")" 26 96 97 1 1 [])] # "parameters"); (B "block" 27 98 120 1 3 [(A "{" 28 98 99 1 1 []); (B "return_statement" 29 104 116 2 2 [(A "return" 30 104 110 2 2 []); (B "null_literal" 31 111 115 2 2 []); (A ";" 32 115 116 2 2 [])]); (A "}" 33 119 120 3 3 [])] # "body")]); (A "}" 34 121 122 4 4 [])] # "body")])]).
Example prettier80_method_wrap81 : as_expected prettier80_method_wrap81_source prettier80_method_wrap81_tree (U "class LongParam {
  public static String sayHelloWithModifier(
    String helloStringA,
    Integer inte1
  ) {
    return null;
  }
}
").
Proof. apply run_test_ok. vm_compute. reflexivity. Qed.

(* tests/prettier80/new_line1.in *)
Definition prettier80_new_line1_source : ustr := U "public class Me {
  {
    param1 = '1';


    param2 = 2;
  }
}
".
Definition prettier80_new_line1_tree : span := (B "parser_output" 1 0 64 0 8 [(B "class_declaration" 2 0 63 0 7 [(B "modifiers" 3 0 6 0 0 [(B "modifier" 4 0 6 0 0 [(B "public" 5 0 6 0 0 [(A "public" 6 0 6 0 0 [])])])]); (A "class" 7 7 12 0 0 []); (B "identifier" 8 13 15 0 0 [] # "name"); (B "class_body" 9 16 63 0 7 [(A "{" 10 16 17 0 0 []); (B "block" 11 20 61 1 6 [(A "{" 12 20 21 1 1 []); (B "expression_statement" 13 26 39 2 2 [(B "assignment_expression" 14 26 38 2 2 [(B "identifier" 15 26 32 2 2 [] # "left"); (B "assignment_operator" 16 33 34 2 2 [(A "=" 17 33 34 2 2 [])] # "operator"); (B "string_literal" 18 35 38 2 2 [] # "right")]); (A ";" 19 38 39 2 2 [])]); (B "expression_statement" 20 46 57 5 5 [(B "assignment_expression" 21 46 56 5 5 [(B "identifier" 22 46 52 5 5 [] # "left"); (B "assignment_operator" 23 53 54 5 5 [(A "=" 24 53 54 5 5 [])] # "operator"); (B "int" 25 55 56 5 5 [] # "right")]); (A ";" 26 56 57 5 5 [])]); (A "}" 27 60 61 6 6 [])]); (A "}" 28 62 63 7 7 [])] # "body")])]).
Example prettier80_new_line1 : as_expected prettier80_new_line1_source prettier80_new_line1_tree (U "public class Me {
  {
    param1 = '1';

    param2 = 2;
  }
}
").
Proof. apply run_test_ok. vm_compute. reflexivity. Qed.

(* tests/prettier80/o10.in *)
Definition prettier80_o10_source : ustr := U "public class Me {
   {
          String test = true   ?   't' 
          : 'f';
   }
}
".
Definition prettier80_o10_tree : span := (B "parser_output" 1 0 87 0 6 [(B "class_declaration" 2 0 86 0 5 [(B "modifiers" 3 0 6 0 0 [(B "modifier" 4 0 6 0 0 [(B "public" 5 0 6 0 0 [(A "public" 6 0 6 0 0 [])])])]); (A "class" 7 7 12 0 0 []); (B "identifier" 8 13 15 0 0 [] # "name"); (B "class_body" 9 16 86 0 5 [(A "{" 10 16 17 0 0 []); (B "block" 11 21 84 1 4 [(A "{" 12 21 22 1 1 []); (B "local_variable_declaration" 13 33 79 2 3 [(B "type_identifier" 14 33 39 2 2 [] # "type"); (B "variable_declarator" 15 40 78 2 3 [(B "identifier" 16 40 44 2 2 [] # "name"); (B "assignment_operator" 17 45 46 2 2 [(A "=" 18 45 46 2 2 [])]); (B "ternary_expression" 19 47 78 2 3 [(B "boolean" 20 47 51 2 2 [(A "true" 21 47 51 2 2 [])] # "condition"); (A "?" 22 54 55 2 2 []); (B "string_literal" 23 58 61 2 2 [] # "consequence"); (A ":" 24 73 74 3 3 []); (B "string_literal" 25 75 78 3 3 [] # "alternative")] # "value")] # "declarator"); (A ";" 26 78 79 3 3 [])]); (A "}" 27 83 84 4 4 [])]); (A "}" 28 85 86 5 5 [])] # "body")])]).
Example prettier80_o10 : as_expected prettier80_o10_source prettier80_o10_tree (U "public class Me {
  {
    String test = true ? 't' : 'f';
  }
}
").
Proof. apply run_test_ok. vm_compute. reflexivity. Qed.

(* tests/prettier80/o11.in *)
Definition prettier80_o11_source : ustr := U "public class Me {
   {
          Boolean test 
        =   !true;
   }
}
".
Definition prettier80_o11_tree : span := (B "parser_output" 1 0 73 0 6 [(B "class_declaration" 2 0 72 0 5 [(B "modifiers" 3 0 6 0 0 [(B "modifier" 4 0 6 0 0 [(B "public" 5 0 6 0 0 [(A "public" 6 0 6 0 0 [])])])]); (A "class" 7 7 12 0 0 []); (B "identifier" 8 13 15 0 0 [] # "name"); (B "class_body" 9 16 72 0 5 [(A "{" 10 16 17 0 0 []); (B "block" 11 21 70 1 4 [(A "{" 12 21 22 1 1 []); (B "local_variable_declaration" 13 33 65 2 3 [(B "type_identifier" 14 33 40 2 2 [] # "type"); (B "variable_declarator" 15 41 64 2 3 [(B "identifier" 16 41 45 2 2 [] # "name"); (B "assignment_operator" 17 55 56 3 3 [(A "=" 18 55 56 3 3 [])]); (B "unary_expression" 19 59 64 3 3 [(A "!" 20 59 60 3 3 [] # "operator"); (B "boolean" 21 60 64 3 3 [(A "true" 22 60 64 3 3 [])] # "operand")] # "value")] # "declarator"); (A ";" 23 64 65 3 3 [])]); (A "}" 24 69 70 4 4 [])]); (A "}" 25 71 72 5 5 [])] # "body")])]).
Example prettier80_o11 : as_expected prettier80_o11_source prettier80_o11_tree (U "public class Me {
  {
    Boolean test = !true;
  }
}
").
Proof. apply run_test_ok. vm_compute. reflexivity. Qed.

(* tests/prettier80/o12.in *)
Definition prettier80_o12_source : ustr := U "public class Me {
   {
        Integer i = 1;


          i = i ++ ;

   }
}

".
Definition prettier80_o12_tree : span := (B "parser_output" 1 0 78 0 10 [(B "class_declaration" 2 0 76 0 8 [(B "modifiers" 3 0 6 0 0 [(B "modifier" 4 0 6 0 0 [(B "public" 5 0 6 0 0 [(A "public" 6 0 6 0 0 [])])])]); (A "class" 7 7 12 0 0 []); (B "identifier" 8 13 15 0 0 [] # "name"); (B "class_body" 9 16 76 0 8 [(A "{" 10 16 17 0 0 []); (B "block" 11 21 74 1 7 [(A "{" 12 21 22 1 1 []); (B "local_variable_declaration" 13 31 45 2 2 [(B "type_identifier" 14 31 38 2 2 [] # "type"); (B "variable_declarator" 15 39 44 2 2 [(B "identifier" 16 39 40 2 2 [] # "name"); (B "assignment_operator" 17 41 42 2 2 [(A "=" 18 41 42 2 2 [])]); (B "int" 19 43 44 2 2 [] # "value")] # "declarator"); (A ";" 20 44 45 2 2 [])]); (B "expression_statement" 21 58 68 5 5 [(B "assignment_expression" 22 58 66 5 5 [(B "identifier" 23 58 59 5 5 [] # "left"); (B "assignment_operator" 24 60 61 5 5 [(A "=" 25 60 61 5 5 [])] # "operator"); (B "update_expression" 26 62 66 5 5 [(B "identifier" 27 62 63 5 5 [] # "operand"); (A "++" 28 64 66 5 5 [] # "operator")] # "right")]); (A ";" 29 67 68 5 5 [])]); (A "}" 30 73 74 7 7 [])]); (A "}" 31 75 76 8 8 [])] # "body")])]).
Example prettier80_o12 : as_expected prettier80_o12_source prettier80_o12_tree (U "public class Me {
  {
    Integer i = 1;

    i = i++;
  }
}
").
Proof. apply run_test_ok. vm_compute. reflexivity. Qed.

(* tests/prettier80/o13.in *)
Definition prettier80_o13_source : ustr := U "public class Me {
   {
        Integer i = 1;
          i 
          = --i ;
   }
}

".
Definition prettier80_o13_tree : span := (B "parser_output" 1 0 85 0 8 [(B "class_declaration" 2 0 83 0 6 [(B "modifiers" 3 0 6 0 0 [(B "modifier" 4 0 6 0 0 [(B "public" 5 0 6 0 0 [(A "public" 6 0 6 0 0 [])])])]); (A "class" 7 7 12 0 0 []); (B "identifier" 8 13 15 0 0 [] # "name"); (B "class_body" 9 16 83 0 6 [(A "{" 10 16 17 0 0 []); (B "block" 11 21 81 1 5 [(A "{" 12 21 22 1 1 []); (B "local_variable_declaration" 13 31 45 2 2 [(B "type_identifier" 14 31 38 2 2 [] # "type"); (B "variable_declarator" 15 39 44 2 2 [(B "identifier" 16 39 40 2 2 [] # "name"); (B "assignment_operator" 17 41 42 2 2 [(A "=" 18 41 42 2 2 [])]); (B "int" 19 43 44 2 2 [] # "value")] # "declarator"); (A ";" 20 44 45 2 2 [])]); (B "expression_statement" 21 56 76 3 4 [(B "assignment_expression" 22 56 74 3 4 [(B "identifier" 23 56 57 3 3 [] # "left"); (B "assignment_operator" 24 69 70 4 4 [(A "=" 25 69 70 4 4 [])] # "operator"); (B "update_expression" 26 71 74 4 4 [(A "--" 27 71 73 4 4 [] # "operator"); (B "identifier" 28 73 74 4 4 [] # "operand")] # "right")]); (A ";" 29 75 76 4 4 [])]); (A "}" 30 80 81 5 5 [])]); (A "}" 31 82 83 6 6 [])] # "body")])]).
Example prettier80_o13 : as_expected prettier80_o13_source prettier80_o13_tree (U "public class Me {
  {
    Integer i = 1;
    i = --i;
  }
}
").
Proof. apply run_test_ok. vm_compute. reflexivity. Qed.

(* tests/prettier80/o14.in *)
Definition prettier80_o14_source : ustr := U "public class Me {
   {
      Integer 
      i  =  2  &  3
        ;
   }
}
".
Definition prettier80_o14_tree : span := (B "parser_output" 1 0 75 0 7 [(B "class_declaration" 2 0 74 0 6 [(B "modifiers" 3 0 6 0 0 [(B "modifier" 4 0 6 0 0 [(B "public" 5 0 6 0 0 [(A "public" 6 0 6 0 0 [])])])]); (A "class" 7 7 12 0 0 []); (B "identifier" 8 13 15 0 0 [] # "name"); (B "class_body" 9 16 74 0 6 [(A "{" 10 16 17 0 0 []); (B "block" 11 21 72 1 5 [(A "{" 12 21 22 1 1 []); (B "local_variable_declaration" 13 29 67 2 4 [(B "type_identifier" 14 29 36 2 2 [] # "type"); (B "variable_declarator" 15 44 57 3 3 [(B "identifier" 16 44 45 3 3 [] # "name"); (B "assignment_operator" 17 47 48 3 3 [(A "=" 18 47 48 3 3 [])]); (B "binary_expression" 19 50 57 3 3 [(B "int" 20 50 51 3 3 [] # "left"); (A "&" 21 53 54 3 3 [] # "operator"); (B "int" 22 56 57 3 3 [] # "right")] # "value")] # "declarator"); (A ";" 23 66 67 4 4 [])]); (A "}" 24 71 72 5 5 [])]); (A "}" 25 73 74 6 6 [])] # "body")])]).
Example prettier80_o14 : as_expected prettier80_o14_source prettier80_o14_tree (U "public class Me {
  {
    Integer i = 2 & 3;
  }
}
").
Proof. apply run_test_ok. vm_compute. reflexivity. Qed.

(* tests/prettier80/o15.in *)
Definition prettier80_o15_source : ustr := U "public class Me {
   {
      Integer 
      i  =  2  |  3
        ;
   }
}
".
Definition prettier80_o15_tree : span := (B "parser_output" 1 0 75 0 7 [(B "class_declaration" 2 0 74 0 6 [(B "modifiers" 3 0 6 0 0 [(B "modifier" 4 0 6 0 0 [(B "public" 5 0 6 0 0 [(A "public" 6 0 6 0 0 [])])])]); (A "class" 7 7 12 0 0 []); (B "identifier" 8 13 15 0 0 [] # "name"); (B "class_body" 9 16 74 0 6 [(A "{" 10 16 17 0 0 []); (B "block" 11 21 72 1 5 [(A "{" 12 21 22 1 1 []); (B "local_variable_declaration" 13 29 67 2 4 [(B "type_identifier" 14 29 36 2 2 [] # "type"); (B "variable_declarator" 15 44 57 3 3 [(B "identifier" 16 44 45 3 3 [] # "name"); (B "assignment_operator" 17 47 48 3 3 [(A "=" 18 47 48 3 3 [])]); (B "binary_expression" 19 50 57 3 3 [(B "int" 20 50 51 3 3 [] # "left"); (A "|" 21 53 54 3 3 [] # "operator"); (B "int" 22 56 57 3 3 [] # "right")] # "value")] # "declarator"); (A ";" 23 66 67 4 4 [])]); (A "}" 24 71 72 5 5 [])]); (A "}" 25 73 74 6 6 [])] # "body")])]).
Example prettier80_o15 : as_expected prettier80_o15_source prettier80_o15_tree (U "public class Me {
  {
    Integer i = 2 | 3;
  }
}
").
Proof. apply run_test_ok. vm_compute. reflexivity. Qed.

(* tests/prettier80/o16.in *)
Definition prettier80_o16_source : ustr := U "public class Me {
   {
      Integer 
      i  =  2  ^  3
        ;
   }
}
".
Definition prettier80_o16_tree : span := (B "parser_output" 1 0 75 0 7 [(B "class_declaration" 2 0 74 0 6 [(B "modifiers" 3 0 6 0 0 [(B "modifier" 4 0 6 0 0 [(B "public" 5 0 6 0 0 [(A "public" 6 0 6 0 0 [])])])]); (A "class" 7 7 12 0 0 []); (B "identifier" 8 13 15 0 0 [] # "name"); (B "class_body" 9 16 74 0 6 [(A "{" 10 16 17 0 0 []); (B "block" 11 21 72 1 5 [(A "{" 12 21 22 1 1 []); (B "local_variable_declaration" 13 29 67 2 4 [(B "type_identifier" 14 29 36 2 2 [] # "type"); (B "variable_declarator" 15 44 57 3 3 [(B "identifier" 16 44 45 3 3 [] # "name"); (B "assignment_operator" 17 47 48 3 3 [(A "=" 18 47 48 3 3 [])]); (B "binary_expression" 19 50 57 3 3 [(B "int" 20 50 51 3 3 [] # "left"); (A "^" 21 53 54 3 3 [] # "operator"); (B "int" 22 56 57 3 3 [] # "right")] # "value")] # "declarator"); (A ";" 23 66 67 4 4 [])]); (A "}" 24 71 72 5 5 [])]); (A "}" 25 73 74 6 6 [])] # "body")])]).
Example prettier80_o16 : as_expected prettier80_o16_source prettier80_o16_tree (U "public class Me {
  {
    Integer i = 2 ^ 3;
  }
}
").
Proof. apply run_test_ok. vm_compute. reflexivity. Qed.

(* tests/prettier80/o17.in *)
Definition prettier80_o17_source : ustr := U "public class Me {
   {
      Integer i = 2;
      i  ^=  3   ;



   }
}
".
Definition prettier80_o17_tree : span := (B "parser_output" 1 0 73 0 9 [(B "class_declaration" 2 0 72 0 8 [(B "modifiers" 3 0 6 0 0 [(B "modifier" 4 0 6 0 0 [(B "public" 5 0 6 0 0 [(A "public" 6 0 6 0 0 [])])])]); (A "class" 7 7 12 0 0 []); (B "identifier" 8 13 15 0 0 [] # "name"); (B "class_body" 9 16 72 0 8 [(A "{" 10 16 17 0 0 []); (B "block" 11 21 70 1 7 [(A "{" 12 21 22 1 1 []); (B "local_variable_declaration" 13 29 43 2 2 [(B "type_identifier" 14 29 36 2 2 [] # "type"); (B "variable_declarator" 15 37 42 2 2 [(B "identifier" 16 37 38 2 2 [] # "name"); (B "assignment_operator" 17 39 40 2 2 [(A "=" 18 39 40 2 2 [])]); (B "int" 19 41 42 2 2 [] # "value")] # "declarator"); (A ";" 20 42 43 2 2 [])]); (B "expression_statement" 21 50 62 3 3 [(B "assignment_expression" 22 50 58 3 3 [(B "identifier" 23 50 51 3 3 [] # "left"); (B "assignment_operator" 24 53 55 3 3 [(A "^=" 25 53 55 3 3 [])] # "operator"); (B "int" 26 57 58 3 3 [] # "right")]); (A ";" 27 61 62 3 3 [])]); (A "}" 28 69 70 7 7 [])]); (A "}" 29 71 72 8 8 [])] # "body")])]).
Example prettier80_o17 : as_expected prettier80_o17_source prettier80_o17_tree (U "public class Me {
  {
    Integer i = 2;
    i ^= 3;
  }
}
").
Proof. apply run_test_ok. vm_compute. reflexivity. Qed.

(* tests/prettier80/o18.in *)
Definition prettier80_o18_source : ustr := U "public class Me {
   {
        Integer i = 1;
        i   << 1  ;

   }
}
".
Definition prettier80_o18_tree : span := (B "parser_output" 1 0 74 0 7 [(B "class_declaration" 2 0 73 0 6 [(B "modifiers" 3 0 6 0 0 [(B "modifier" 4 0 6 0 0 [(B "public" 5 0 6 0 0 [(A "public" 6 0 6 0 0 [])])])]); (A "class" 7 7 12 0 0 []); (B "identifier" 8 13 15 0 0 [] # "name"); (B "class_body" 9 16 73 0 6 [(A "{" 10 16 17 0 0 []); (B "block" 11 21 71 1 5 [(A "{" 12 21 22 1 1 []); (B "local_variable_declaration" 13 31 45 2 2 [(B "type_identifier" 14 31 38 2 2 [] # "type"); (B "variable_declarator" 15 39 44 2 2 [(B "identifier" 16 39 40 2 2 [] # "name"); (B "assignment_operator" 17 41 42 2 2 [(A "=" 18 41 42 2 2 [])]); (B "int" 19 43 44 2 2 [] # "value")] # "declarator"); (A ";" 20 44 45 2 2 [])]); (B "expression_statement" 21 54 65 3 3 [(B "binary_expression" 22 54 62 3 3 [(B "identifier" 23 54 55 3 3 [] # "left"); (A "<<" 24 58 60 3 3 [] # "operator"); (B "int" 25 61 62 3 3 [] # "right")]); (A ";" 26 64 65 3 3 [])]); (A "}" 27 70 71 5 5 [])]); (A "}" 28 72 73 6 6 [])] # "body")])]).
Example prettier80_o18 : as_expected prettier80_o18_source prettier80_o18_tree (U "public class Me {
  {
    Integer i = 1;
    i << 1;
  }
}
").
Proof. apply run_test_ok. vm_compute. reflexivity. Qed.

(* tests/prettier80/o19.in *)
Definition prettier80_o19_source : ustr := U "public class Me {
   {
        Integer i = 1;
        i  >>  1;
   }
}

".
Definition prettier80_o19_tree : span := (B "parser_output" 1 0 72 0 7 [(B "class_declaration" 2 0 70 0 5 [(B "modifiers" 3 0 6 0 0 [(B "modifier" 4 0 6 0 0 [(B "public" 5 0 6 0 0 [(A "public" 6 0 6 0 0 [])])])]); (A "class" 7 7 12 0 0 []); (B "identifier" 8 13 15 0 0 [] # "name"); (B "class_body" 9 16 70 0 5 [(A "{" 10 16 17 0 0 []); (B "block" 11 21 68 1 4 [(A "{" 12 21 22 1 1 []); (B "local_variable_declaration" 13 31 45 2 2 [(B "type_identifier" 14 31 38 2 2 [] # "type"); (B "variable_declarator" 15 39 44 2 2 [(B "identifier" 16 39 40 2 2 [] # "name"); (B "assignment_operator" 17 41 42 2 2 [(A "=" 18 41 42 2 2 [])]); (B "int" 19 43 44 2 2 [] # "value")] # "declarator"); (A ";" 20 44 45 2 2 [])]); (B "expression_statement" 21 54 63 3 3 [(B "binary_expression" 22 54 62 3 3 [(B "identifier" 23 54 55 3 3 [] # "left"); (A ">>" 24 57 59 3 3 [] # "operator"); (B "int" 25 61 62 3 3 [] # "right")]); (A ";" 26 62 63 3 3 [])]); (A "}" 27 67 68 4 4 [])]); (A "}" 28 69 70 5 5 [])] # "body")])]).
Example prettier80_o19 : as_expected prettier80_o19_source prettier80_o19_tree (U "public class Me {
  {
    Integer i = 1;
    i >> 1;
  }
}
").
Proof. apply run_test_ok. vm_compute. reflexivity. Qed.

(* tests/prettier80/o2.in *)
Definition prettier80_o2_source : ustr := U "public class Me {
   {

              Integer i = 1;


        i *= 2;


   }
}
".
Definition prettier80_o2_tree : span := (B "parser_output" 1 0 80 0 11 [(B "class_declaration" 2 0 79 0 10 [(B "modifiers" 3 0 6 0 0 [(B "modifier" 4 0 6 0 0 [(B "public" 5 0 6 0 0 [(A "public" 6 0 6 0 0 [])])])]); (A "class" 7 7 12 0 0 []); (B "identifier" 8 13 15 0 0 [] # "name"); (B "class_body" 9 16 79 0 10 [(A "{" 10 16 17 0 0 []); (B "block" 11 21 77 1 9 [(A "{" 12 21 22 1 1 []); (B "local_variable_declaration" 13 38 52 3 3 [(B "type_identifier" 14 38 45 3 3 [] # "type"); (B "variable_declarator" 15 46 51 3 3 [(B "identifier" 16 46 47 3 3 [] # "name"); (B "assignment_operator" 17 48 49 3 3 [(A "=" 18 48 49 3 3 [])]); (B "int" 19 50 51 3 3 [] # "value")] # "declarator"); (A ";" 20 51 52 3 3 [])]); (B "expression_statement" 21 63 70 6 6 [(B "assignment_expression" 22 63 69 6 6 [(B "identifier" 23 63 64 6 6 [] # "left"); (B "assignment_operator" 24 65 67 6 6 [(A "*=" 25 65 67 6 6 [])] # "operator"); (B "int" 26 68 69 6 6 [] # "right")]); (A ";" 27 69 70 6 6 [])]); (A "}" 28 76 77 9 9 [])]); (A "}" 29 78 79 10 10 [])] # "body")])]).
Example prettier80_o2 : as_expected prettier80_o2_source prettier80_o2_tree (U "public class Me {
  {
    Integer i = 1;

    i *= 2;
  }
}
").
Proof. apply run_test_ok. vm_compute. reflexivity. Qed.

(* tests/prettier80/o20.in *)
Definition prettier80_o20_source : ustr := U "public class Me {
   {
        Integer i = 1;
        i  >>>  1 
        ;
   }
}
".
Definition prettier80_o20_tree : span := (B "parser_output" 1 0 82 0 7 [(B "class_declaration" 2 0 81 0 6 [(B "modifiers" 3 0 6 0 0 [(B "modifier" 4 0 6 0 0 [(B "public" 5 0 6 0 0 [(A "public" 6 0 6 0 0 [])])])]); (A "class" 7 7 12 0 0 []); (B "identifier" 8 13 15 0 0 [] # "name"); (B "class_body" 9 16 81 0 6 [(A "{" 10 16 17 0 0 []); (B "block" 11 21 79 1 5 [(A "{" 12 21 22 1 1 []); (B "local_variable_declaration" 13 31 45 2 2 [(B "type_identifier" 14 31 38 2 2 [] # "type"); (B "variable_declarator" 15 39 44 2 2 [(B "identifier" 16 39 40 2 2 [] # "name"); (B "assignment_operator" 17 41 42 2 2 [(A "=" 18 41 42 2 2 [])]); (B "int" 19 43 44 2 2 [] # "value")] # "declarator"); (A ";" 20 44 45 2 2 [])]); (B "expression_statement" 21 54 74 3 4 [(B "binary_expression" 22 54 63 3 3 [(B "identifier" 23 54 55 3 3 [] # "left"); (A ">>>" 24 57 60 3 3 [] # "operator"); (B "int" 25 62 63 3 3 [] # "right")]); (A ";" 26 73 74 4 4 [])]); (A "}" 27 78 79 5 5 [])]); (A "}" 28 80 81 6 6 [])] # "body")])]).
Example prettier80_o20 : as_expected prettier80_o20_source prettier80_o20_tree (U "public class Me {
  {
    Integer i = 1;
    i >>> 1;
  }
}
").
Proof. apply run_test_ok. vm_compute. reflexivity. Qed.

(* tests/prettier80/o21.in *)
Definition prettier80_o21_source : ustr := U "public class Me {
   {
        Integer i = 1;
        i 
        =  ~i ;
   }
}
".
Definition prettier80_o21_tree : span := (B "parser_output" 1 0 80 0 7 [(B "class_declaration" 2 0 79 0 6 [(B "modifiers" 3 0 6 0 0 [(B "modifier" 4 0 6 0 0 [(B "public" 5 0 6 0 0 [(A "public" 6 0 6 0 0 [])])])]); (A "class" 7 7 12 0 0 []); (B "identifier" 8 13 15 0 0 [] # "name"); (B "class_body" 9 16 79 0 6 [(A "{" 10 16 17 0 0 []); (B "block" 11 21 77 1 5 [(A "{" 12 21 22 1 1 []); (B "local_variable_declaration" 13 31 45 2 2 [(B "type_identifier" 14 31 38 2 2 [] # "type"); (B "variable_declarator" 15 39 44 2 2 [(B "identifier" 16 39 40 2 2 [] # "name"); (B "assignment_operator" 17 41 42 2 2 [(A "=" 18 41 42 2 2 [])]); (B "int" 19 43 44 2 2 [] # "value")] # "declarator"); (A ";" 20 44 45 2 2 [])]); (B "expression_statement" 21 54 72 3 4 [(B "assignment_expression" 22 54 70 3 4 [(B "identifier" 23 54 55 3 3 [] # "left"); (B "assignment_operator" 24 65 66 4 4 [(A "=" 25 65 66 4 4 [])] # "operator"); (B "unary_expression" 26 68 70 4 4 [(A "~" 27 68 69 4 4 [] # "operator"); (B "identifier" 28 69 70 4 4 [] # "operand")] # "right")]); (A ";" 29 71 72 4 4 [])]); (A "}" 30 76 77 5 5 [])]); (A "}" 31 78 79 6 6 [])] # "body")])]).
Example prettier80_o21 : as_expected prettier80_o21_source prettier80_o21_tree (U "public class Me {
  {
    Integer i = 1;
    i = ~i;
  }
}
").
Proof. apply run_test_ok. vm_compute. reflexivity. Qed.

(* tests/prettier80/o22.in *)
Definition prettier80_o22_source : ustr := U "public class Me {
   {
        Integer i 
        = ref?.maybe ;
        Integer i = 
        ref?.maybeNot ()
        ;
   }
}
".
Definition prettier80_o22_tree : span := (B "parser_output" 1 0 128 0 9 [(B "class_declaration" 2 0 127 0 8 [(B "modifiers" 3 0 6 0 0 [(B "modifier" 4 0 6 0 0 [(B "public" 5 0 6 0 0 [(A "public" 6 0 6 0 0 [])])])]); (A "class" 7 7 12 0 0 []); (B "identifier" 8 13 15 0 0 [] # "name"); (B "class_body" 9 16 127 0 8 [(A "{" 10 16 17 0 0 []); (B "block" 11 21 125 1 7 [(A "{" 12 21 22 1 1 []); (B "local_variable_declaration" 13 31 64 2 3 [(B "type_identifier" 14 31 38 2 2 [] # "type"); (B "variable_declarator" 15 39 62 2 3 [(B "identifier" 16 39 40 2 2 [] # "name"); (B "assignment_operator" 17 50 51 3 3 [(A "=" 18 50 51 3 3 [])]); (B "field_access" 19 52 62 3 3 [(B "identifier" 20 52 55 3 3 [] # "object"); (B "safe_navigation_operator" 21 55 57 3 3 [(A "?." 22 55 57 3 3 [])]); (B "identifier" 23 57 62 3 3 [] # "field")] # "value")] # "declarator"); (A ";" 24 63 64 3 3 [])]); (B "local_variable_declaration" 25 73 120 4 6 [(B "type_identifier" 26 73 80 4 4 [] # "type"); (B "variable_declarator" 27 81 110 4 5 [(B "identifier" 28 81 82 4 4 [] # "name"); (B "assignment_operator" 29 83 84 4 4 [(A "=" 30 83 84 4 4 [])]); (B "method_invocation" 31 94 110 5 5 [(B "identifier" 32 94 97 5 5 [] # "object"); (B "safe_navigation_operator" 33 97 99 5 5 [(A "?." 34 97 99 5 5 [])]); (B "identifier" 35 99 107 5 5 [] # "name"); (B "argument_list" 36 108 110 5 5 [(A "(" 37 108 109 5 5 []); (A ")" 38 109 110 5 5 [])] # "arguments")] # "value")] # "declarator"); (A ";" 39 119 120 6 6 [])]); (A "}" 40 124 125 7 7 [])]); (A "}" 41 126 127 8 8 [])] # "body")])]).
Example prettier80_o22 : as_expected prettier80_o22_source prettier80_o22_tree (U "public class Me {
  {
    Integer i = ref?.maybe;
    Integer i = ref?.maybeNot();
  }
}
").
Proof. apply run_test_ok. vm_compute. reflexivity. Qed.

(* tests/prettier80/o3.in *)
Definition prettier80_o3_source : ustr := U "public class Me {
   {
          Integer i    =   1  ;

        i    -=    2;

   }
}

".
Definition prettier80_o3_tree : span := (B "parser_output" 1 0 87 0 9 [(B "class_declaration" 2 0 85 0 7 [(B "modifiers" 3 0 6 0 0 [(B "modifier" 4 0 6 0 0 [(B "public" 5 0 6 0 0 [(A "public" 6 0 6 0 0 [])])])]); (A "class" 7 7 12 0 0 []); (B "identifier" 8 13 15 0 0 [] # "name"); (B "class_body" 9 16 85 0 7 [(A "{" 10 16 17 0 0 []); (B "block" 11 21 83 1 6 [(A "{" 12 21 22 1 1 []); (B "local_variable_declaration" 13 33 54 2 2 [(B "type_identifier" 14 33 40 2 2 [] # "type"); (B "variable_declarator" 15 41 51 2 2 [(B "identifier" 16 41 42 2 2 [] # "name"); (B "assignment_operator" 17 46 47 2 2 [(A "=" 18 46 47 2 2 [])]); (B "int" 19 50 51 2 2 [] # "value")] # "declarator"); (A ";" 20 53 54 2 2 [])]); (B "expression_statement" 21 64 77 4 4 [(B "assignment_expression" 22 64 76 4 4 [(B "identifier" 23 64 65 4 4 [] # "left"); (B "assignment_operator" 24 69 71 4 4 [(A "-=" 25 69 71 4 4 [])] # "operator"); (B "int" 26 75 76 4 4 [] # "right")]); (A ";" 27 76 77 4 4 [])]); (A "}" 28 82 83 6 6 [])]); (A "}" 29 84 85 7 7 [])] # "body")])]).
Example prettier80_o3 : as_expected prettier80_o3_source prettier80_o3_tree (U "public class Me {
  {
    Integer i = 1;

    i -= 2;
  }
}
").
Proof. apply run_test_ok. vm_compute. reflexivity. Qed.

(* tests/prettier80/o4.in *)
Definition prettier80_o4_source : ustr := U "
public class Me {
   {
        Integer i = 1;

        i /= 2 ;
   }
}

".
Definition prettier80_o4_tree : span := (B "parser_output" 1 1 73 1 9 [(B "class_declaration" 2 1 71 1 7 [(B "modifiers" 3 1 7 1 1 [(B "modifier" 4 1 7 1 1 [(B "public" 5 1 7 1 1 [(A "public" 6 1 7 1 1 [])])])]); (A "class" 7 8 13 1 1 []); (B "identifier" 8 14 16 1 1 [] # "name"); (B "class_body" 9 17 71 1 7 [(A "{" 10 17 18 1 1 []); (B "block" 11 22 69 2 6 [(A "{" 12 22 23 2 2 []); (B "local_variable_declaration" 13 32 46 3 3 [(B "type_identifier" 14 32 39 3 3 [] # "type"); (B "variable_declarator" 15 40 45 3 3 [(B "identifier" 16 40 41 3 3 [] # "name"); (B "assignment_operator" 17 42 43 3 3 [(A "=" 18 42 43 3 3 [])]); (B "int" 19 44 45 3 3 [] # "value")] # "declarator"); (A ";" 20 45 46 3 3 [])]); (B "expression_statement" 21 56 64 5 5 [(B "assignment_expression" 22 56 62 5 5 [(B "identifier" 23 56 57 5 5 [] # "left"); (B "assignment_operator" 24 58 60 5 5 [(A "/=" 25 58 60 5 5 [])] # "operator"); (B "int" 26 61 62 5 5 [] # "right")]); (A ";" 27 63 64 5 5 [])]); (A "}" 28 68 69 6 6 [])]); (A "}" 29 70 71 7 7 [])] # "body")])]).
Example prettier80_o4 : as_expected prettier80_o4_source prettier80_o4_tree (U "public class Me {
  {
    Integer i = 1;

    i /= 2;
  }
}
").
Proof. apply run_test_ok. vm_compute. reflexivity. Qed.

(* tests/prettier80/o5.in *)
Definition prettier80_o5_source : ustr := U "public class Me {
   {
        Boolean test = false;
        test |= false;
   }
}
".
Definition prettier80_o5_tree : span := (B "parser_output" 1 0 83 0 6 [(B "class_declaration" 2 0 82 0 5 [(B "modifiers" 3 0 6 0 0 [(B "modifier" 4 0 6 0 0 [(B "public" 5 0 6 0 0 [(A "public" 6 0 6 0 0 [])])])]); (A "class" 7 7 12 0 0 []); (B "identifier" 8 13 15 0 0 [] # "name"); (B "class_body" 9 16 82 0 5 [(A "{" 10 16 17 0 0 []); (B "block" 11 21 80 1 4 [(A "{" 12 21 22 1 1 []); (B "local_variable_declaration" 13 31 52 2 2 [(B "type_identifier" 14 31 38 2 2 [] # "type"); (B "variable_declarator" 15 39 51 2 2 [(B "identifier" 16 39 43 2 2 [] # "name"); (B "assignment_operator" 17 44 45 2 2 [(A "=" 18 44 45 2 2 [])]); (B "boolean" 19 46 51 2 2 [(A "false" 20 46 51 2 2 [])] # "value")] # "declarator"); (A ";" 21 51 52 2 2 [])]); (B "expression_statement" 22 61 75 3 3 [(B "assignment_expression" 23 61 74 3 3 [(B "identifier" 24 61 65 3 3 [] # "left"); (B "assignment_operator" 25 66 68 3 3 [(A "|=" 26 66 68 3 3 [])] # "operator"); (B "boolean" 27 69 74 3 3 [(A "false" 28 69 74 3 3 [])] # "right")]); (A ";" 29 74 75 3 3 [])]); (A "}" 30 79 80 4 4 [])]); (A "}" 31 81 82 5 5 [])] # "body")])]).
Example prettier80_o5 : as_expected prettier80_o5_source prettier80_o5_tree (U "public class Me {
  {
    Boolean test = false;
    test |= false;
  }
}
").
Proof. apply run_test_ok. vm_compute. reflexivity. Qed.

(* tests/prettier80/o6.in *)
Definition prettier80_o6_source : ustr := U "public class Me {
   {
        Boolean test = false;

        test   &=   
         false;
   }
}
".
Definition prettier80_o6_tree : span := (B "parser_output" 1 0 98 0 8 [(B "class_declaration" 2 0 97 0 7 [(B "modifiers" 3 0 6 0 0 [(B "modifier" 4 0 6 0 0 [(B "public" 5 0 6 0 0 [(A "public" 6 0 6 0 0 [])])])]); (A "class" 7 7 12 0 0 []); (B "identifier" 8 13 15 0 0 [] # "name"); (B "class_body" 9 16 97 0 7 [(A "{" 10 16 17 0 0 []); (B "block" 11 21 95 1 6 [(A "{" 12 21 22 1 1 []); (B "local_variable_declaration" 13 31 52 2 2 [(B "type_identifier" 14 31 38 2 2 [] # "type"); (B "variable_declarator" 15 39 51 2 2 [(B "identifier" 16 39 43 2 2 [] # "name"); (B "assignment_operator" 17 44 45 2 2 [(A "=" 18 44 45 2 2 [])]); (B "boolean" 19 46 51 2 2 [(A "false" 20 46 51 2 2 [])] # "value")] # "declarator"); (A ";" 21 51 52 2 2 [])]); (B "expression_statement" 22 62 90 4 5 [(B "assignment_expression" 23 62 89 4 5 [(B "identifier" 24 62 66 4 4 [] # "left"); (B "assignment_operator" 25 69 71 4 4 [(A "&=" 26 69 71 4 4 [])] # "operator"); (B "boolean" 27 84 89 5 5 [(A "false" 28 84 89 5 5 [])] # "right")]); (A ";" 29 89 90 5 5 [])]); (A "}" 30 94 95 6 6 [])]); (A "}" 31 96 97 7 7 [])] # "body")])]).
Example prettier80_o6 : as_expected prettier80_o6_source prettier80_o6_tree (U "public class Me {
  {
    Boolean test = false;

    test &= false;
  }
}
").
Proof. apply run_test_ok. vm_compute. reflexivity. Qed.

(* tests/prettier80/o7.in *)
Definition prettier80_o7_source : ustr := U "public class Me {
   {
        Integer i = 1;

        i <<= 2 ;

   }
}
".
Definition prettier80_o7_tree : span := (B "parser_output" 1 0 73 0 8 [(B "class_declaration" 2 0 72 0 7 [(B "modifiers" 3 0 6 0 0 [(B "modifier" 4 0 6 0 0 [(B "public" 5 0 6 0 0 [(A "public" 6 0 6 0 0 [])])])]); (A "class" 7 7 12 0 0 []); (B "identifier" 8 13 15 0 0 [] # "name"); (B "class_body" 9 16 72 0 7 [(A "{" 10 16 17 0 0 []); (B "block" 11 21 70 1 6 [(A "{" 12 21 22 1 1 []); (B "local_variable_declaration" 13 31 45 2 2 [(B "type_identifier" 14 31 38 2 2 [] # "type"); (B "variable_declarator" 15 39 44 2 2 [(B "identifier" 16 39 40 2 2 [] # "name"); (B "assignment_operator" 17 41 42 2 2 [(A "=" 18 41 42 2 2 [])]); (B "int" 19 43 44 2 2 [] # "value")] # "declarator"); (A ";" 20 44 45 2 2 [])]); (B "expression_statement" 21 55 64 4 4 [(B "assignment_expression" 22 55 62 4 4 [(B "identifier" 23 55 56 4 4 [] # "left"); (B "assignment_operator" 24 57 60 4 4 [(A "<<=" 25 57 60 4 4 [])] # "operator"); (B "int" 26 61 62 4 4 [] # "right")]); (A ";" 27 63 64 4 4 [])]); (A "}" 28 69 70 6 6 [])]); (A "}" 29 71 72 7 7 [])] # "body")])]).
Example prettier80_o7 : as_expected prettier80_o7_source prettier80_o7_tree (U "public class Me {
  {
    Integer i = 1;

    i <<= 2;
  }
}
").
Proof. apply run_test_ok. vm_compute. reflexivity. Qed.

(* tests/prettier80/o8.in *)
Definition prettier80_o8_source : ustr := U "public class Me {
   {
        Integer i = 1;

        i >>= 2;

   }
}

".
Definition prettier80_o8_tree : span := (B "parser_output" 1 0 73 0 9 [(B "class_declaration" 2 0 71 0 7 [(B "modifiers" 3 0 6 0 0 [(B "modifier" 4 0 6 0 0 [(B "public" 5 0 6 0 0 [(A "public" 6 0 6 0 0 [])])])]); (A "class" 7 7 12 0 0 []); (B "identifier" 8 13 15 0 0 [] # "name"); (B "class_body" 9 16 71 0 7 [(A "{" 10 16 17 0 0 []); (B "block" 11 21 69 1 6 [(A "{" 12 21 22 1 1 []); (B "local_variable_declaration" 13 31 45 2 2 [(B "type_identifier" 14 31 38 2 2 [] # "type"); (B "variable_declarator" 15 39 44 2 2 [(B "identifier" 16 39 40 2 2 [] # "name"); (B "assignment_operator" 17 41 42 2 2 [(A "=" 18 41 42 2 2 [])]); (B "int" 19 43 44 2 2 [] # "value")] # "declarator"); (A ";" 20 44 45 2 2 [])]); (B "expression_statement" 21 55 63 4 4 [(B "assignment_expression" 22 55 62 4 4 [(B "identifier" 23 55 56 4 4 [] # "left"); (B "assignment_operator" 24 57 60 4 4 [(A ">>=" 25 57 60 4 4 [])] # "operator"); (B "int" 26 61 62 4 4 [] # "right")]); (A ";" 27 62 63 4 4 [])]); (A "}" 28 68 69 6 6 [])]); (A "}" 29 70 71 7 7 [])] # "body")])]).
Example prettier80_o8 : as_expected prettier80_o8_source prettier80_o8_tree (U "public class Me {
  {
    Integer i = 1;

    i >>= 2;
  }
}
").
Proof. apply run_test_ok. vm_compute. reflexivity. Qed.

(* tests/prettier80/o9.in *)
Definition prettier80_o9_source : ustr := U "
public class Me {
   {
        Integer i = 1;

          i >>>= 2;
   }
}

".
Definition prettier80_o9_tree : span := (B "parser_output" 1 1 76 1 9 [(B "class_declaration" 2 1 74 1 7 [(B "modifiers" 3 1 7 1 1 [(B "modifier" 4 1 7 1 1 [(B "public" 5 1 7 1 1 [(A "public" 6 1 7 1 1 [])])])]); (A "class" 7 8 13 1 1 []); (B "identifier" 8 14 16 1 1 [] # "name"); (B "class_body" 9 17 74 1 7 [(A "{" 10 17 18 1 1 []); (B "block" 11 22 72 2 6 [(A "{" 12 22 23 2 2 []); (B "local_variable_declaration" 13 32 46 3 3 [(B "type_identifier" 14 32 39 3 3 [] # "type"); (B "variable_declarator" 15 40 45 3 3 [(B "identifier" 16 40 41 3 3 [] # "name"); (B "assignment_operator" 17 42 43 3 3 [(A "=" 18 42 43 3 3 [])]); (B "int" 19 44 45 3 3 [] # "value")] # "declarator"); (A ";" 20 45 46 3 3 [])]); (B "expression_statement" 21 58 67 5 5 [(B "assignment_expression" 22 58 66 5 5 [(B "identifier" 23 58 59 5 5 [] # "left"); (B "assignment_operator" 24 60 64 5 5 [(A ">>>=" 25 60 64 5 5 [])] # "operator"); (B "int" 26 65 66 5 5 [] # "right")]); (A ";" 27 66 67 5 5 [])]); (A "}" 28 71 72 6 6 [])]); (A "}" 29 73 74 7 7 [])] # "body")])]).
Example prettier80_o9 : as_expected prettier80_o9_source prettier80_o9_tree (U "public class Me {
  {
    Integer i = 1;

    i >>>= 2;
  }
}
").
Proof. apply run_test_ok. vm_compute. reflexivity. Qed.

(* tests/prettier80/operator.in *)
Definition prettier80_operator_source : ustr := U "public class A {
    {
    if (i >   = 0) {   
    }
  }
}
".
Definition prettier80_operator_tree : span := (B "parser_output" 1 0 59 0 6 [(B "class_declaration" 2 0 58 0 5 [(B "modifiers" 3 0 6 0 0 [(B "modifier" 4 0 6 0 0 [(B "public" 5 0 6 0 0 [(A "public" 6 0 6 0 0 [])])])]); (A "class" 7 7 12 0 0 []); (B "identifier" 8 13 14 0 0 [] # "name"); (B "class_body" 9 15 58 0 5 [(A "{" 10 15 16 0 0 []); (B "block" 11 21 56 1 4 [(A "{" 12 21 22 1 1 []); (B "if_statement" 13 27 52 2 3 [(A "if" 14 27 29 2 2 []); (B "parenthesized_expression" 15 30 41 2 2 [(A "(" 16 30 31 2 2 []); (B "binary_expression" 17 31 40 2 2 [(B "identifier" 18 31 32 2 2 [] # "left"); (A ">=" 19 33 38 2 2 [] # "operator"); (B "int" 20 39 40 2 2 [] # "right")]); (A ")" 21 40 41 2 2 [])] # "condition"); (B "block" 22 42 52 2 3 [(A "{" 23 42 43 2 2 []); (A "}" 24 51 52 3 3 [])] # "consequence")]); (A "}" 25 55 56 4 4 [])]); (A "}" 26 57 58 5 5 [])] # "body")])]).
Example prettier80_operator : as_expected prettier80_operator_source prettier80_operator_tree (U "public class A {
  {
    if (i >= 0) {
    }
  }
}
").
Proof. apply run_test_ok. vm_compute. reflexivity. Qed.

(* tests/prettier80/p1.in *)
Definition prettier80_p1_source : ustr := U "public class Me {

     public transient 
     final static   Integer   TEST 
= 0
;
}
".
Definition prettier80_p1_tree : span := (B "parser_output" 1 0 86 0 7 [(B "class_declaration" 2 0 85 0 6 [(B "modifiers" 3 0 6 0 0 [(B "modifier" 4 0 6 0 0 [(B "public" 5 0 6 0 0 [(A "public" 6 0 6 0 0 [])])])]); (A "class" 7 7 12 0 0 []); (B "identifier" 8 13 15 0 0 [] # "name"); (B "class_body" 9 16 85 0 6 [(A "{" 10 16 17 0 0 []); (B "field_declaration" 11 24 83 2 5 [(B "modifiers" 12 24 59 2 3 [(B "modifier" 13 24 30 2 2 [(B "public" 14 24 30 2 2 [(A "public" 15 24 30 2 2 [])])]); (B "modifier" 16 31 40 2 2 [(B "transient" 17 31 40 2 2 [(A "transient" 18 31 40 2 2 [])])]); (B "modifier" 19 47 52 3 3 [(B "final" 20 47 52 3 3 [(A "final" 21 47 52 3 3 [])])]); (B "modifier" 22 53 59 3 3 [(B "static" 23 53 59 3 3 [(A "static" 24 53 59 3 3 [])])])]); (B "type_identifier" 25 62 69 3 3 [] # "type"); (B "variable_declarator" 26 72 81 3 4 [(B "identifier" 27 72 76 3 3 [] # "name"); (B "assignment_operator" 28 78 79 4 4 [(A "=" 29 78 79 4 4 [])]); (B "int" 30 80 81 4 4 [] # "value")] # "declarator"); (A ";" 31 82 83 5 5 [])]); (A "}" 32 84 85 6 6 [])] # "body")])]).
Example prettier80_p1 : as_expected prettier80_p1_source prettier80_p1_tree (U "public class Me {
  public transient final static Integer TEST = 0;
}
").
Proof. apply run_test_ok. vm_compute. reflexivity. Qed.

(* tests/prettier80/p2.in *)
Definition prettier80_p2_source : ustr := U "public class Me {
   public Integer test1;




     private Integer test1 ;




           protected Integer test1;

     global Integer test1;

           Integer test1;
}
".
Definition prettier80_p2_tree : span := (B "parser_output" 1 0 173 0 17 [(B "class_declaration" 2 0 172 0 16 [(B "modifiers" 3 0 6 0 0 [(B "modifier" 4 0 6 0 0 [(B "public" 5 0 6 0 0 [(A "public" 6 0 6 0 0 [])])])]); (A "class" 7 7 12 0 0 []); (B "identifier" 8 13 15 0 0 [] # "name"); (B "class_body" 9 16 172 0 16 [(A "{" 10 16 17 0 0 []); (B "field_declaration" 11 21 42 1 1 [(B "modifiers" 12 21 27 1 1 [(B "modifier" 13 21 27 1 1 [(B "public" 14 21 27 1 1 [(A "public" 15 21 27 1 1 [])])])]); (B "type_identifier" 16 28 35 1 1 [] # "type"); (B "variable_declarator" 17 36 41 1 1 [(B "identifier" 18 36 41 1 1 [] # "name")] # "declarator"); (A ";" 19 41 42 1 1 [])]); (B "field_declaration" 20 52 75 6 6 [(B "modifiers" 21 52 59 6 6 [(B "modifier" 22 52 59 6 6 [(B "private" 23 52 59 6 6 [(A "private" 24 52 59 6 6 [])])])]); (B "type_identifier" 25 60 67 6 6 [] # "type"); (B "variable_declarator" 26 68 73 6 6 [(B "identifier" 27 68 73 6 6 [] # "name")] # "declarator"); (A ";" 28 74 75 6 6 [])]); (B "field_declaration" 29 91 115 11 11 [(B "modifiers" 30 91 100 11 11 [(B "modifier" 31 91 100 11 11 [(B "protected" 32 91 100 11 11 [(A "protected" 33 91 100 11 11 [])])])]); (B "type_identifier" 34 101 108 11 11 [] # "type"); (B "variable_declarator" 35 109 114 11 11 [(B "identifier" 36 109 114 11 11 [] # "name")] # "declarator"); (A ";" 37 114 115 11 11 [])]); (B "field_declaration" 38 122 143 13 13 [(B "modifiers" 39 122 128 13 13 [(B "modifier" 40 122 128 13 13 [(B "global" 41 122 128 13 13 [(A "global" 42 122 128 13 13 [])])])]); (B "type_identifier" 43 129 136 13 13 [] # "type"); (B "variable_declarator" 44 137 142 13 13 [(B "identifier" 45 137 142 13 13 [] # "name")] # "declarator"); (A ";" 46 142 143 13 13 [])]); (B "field_declaration" 47 156 170 15 15 [(B "type_identifier" 48 156 163 15 15 [] # "type"); (B "variable_declarator" 49 164 169 15 15 [(B "identifier" 50 164 169 15 15 [] # "name")] # "declarator"); (A ";" 51 169 170 15 15 [])]); (A "}" 52 171 172 16 16 [])] # "body")])]).
Example prettier80_p2 : as_expected prettier80_p2_source prettier80_p2_tree (U "public class Me {
  public Integer test1;

  private Integer test1;

  protected Integer test1;

  global Integer test1;

  Integer test1;
}
").
Proof. apply run_test_ok. vm_compute. reflexivity. Qed.

(* tests/prettier80/p3.in *)
Definition prettier80_p3_source : ustr := U "public class Me {
   final Integer test1;

   static Integer test1;

   transient    Integer       test1;

   static transient Integer test1;

   final static Integer test1;

}

".
Definition prettier80_p3_tree : span := (B "parser_output" 1 0 178 0 13 [(B "class_declaration" 2 0 176 0 11 [(B "modifiers" 3 0 6 0 0 [(B "modifier" 4 0 6 0 0 [(B "public" 5 0 6 0 0 [(A "public" 6 0 6 0 0 [])])])]); (A "class" 7 7 12 0 0 []); (B "identifier" 8 13 15 0 0 [] # "name"); (B "class_body" 9 16 176 0 11 [(A "{" 10 16 17 0 0 []); (B "field_declaration" 11 21 41 1 1 [(B "modifiers" 12 21 26 1 1 [(B "modifier" 13 21 26 1 1 [(B "final" 14 21 26 1 1 [(A "final" 15 21 26 1 1 [])])])]); (B "type_identifier" 16 27 34 1 1 [] # "type"); (B "variable_declarator" 17 35 40 1 1 [(B "identifier" 18 35 40 1 1 [] # "name")] # "declarator"); (A ";" 19 40 41 1 1 [])]); (B "field_declaration" 20 46 67 3 3 [(B "modifiers" 21 46 52 3 3 [(B "modifier" 22 46 52 3 3 [(B "static" 23 46 52 3 3 [(A "static" 24 46 52 3 3 [])])])]); (B "type_identifier" 25 53 60 3 3 [] # "type"); (B "variable_declarator" 26 61 66 3 3 [(B "identifier" 27 61 66 3 3 [] # "name")] # "declarator"); (A ";" 28 66 67 3 3 [])]); (B "field_declaration" 29 72 105 5 5 [(B "modifiers" 30 72 81 5 5 [(B "modifier" 31 72 81 5 5 [(B "transient" 32 72 81 5 5 [(A "transient" 33 72 81 5 5 [])])])]); (B "type_identifier" 34 85 92 5 5 [] # "type"); (B "variable_declarator" 35 99 104 5 5 [(B "identifier" 36 99 104 5 5 [] # "name")] # "declarator"); (A ";" 37 104 105 5 5 [])]); (B "field_declaration" 38 110 141 7 7 [(B "modifiers" 39 110 126 7 7 [(B "modifier" 40 110 116 7 7 [(B "static" 41 110 116 7 7 [(A "static" 42 110 116 7 7 [])])]); (B "modifier" 43 117 126 7 7 [(B "transient" 44 117 126 7 7 [(A "transient" 45 117 126 7 7 [])])])]); (B "type_identifier" 46 127 134 7 7 [] # "type"); (B "variable_declarator" 47 135 140 7 7 [(B "identifier" 48 135 140 7 7 [] # "name")] # "declarator"); (A ";" 49 140 141 7 7 [])]); (B "field_declaration" 50 146 173 9 9 [(B "modifiers" 51 146 158 9 9 [(B "modifier" 52 146 151 9 9 [(B "final" 53 146 151 9 9 [(A "final" 54 146 151 9 9 [])])]); (B "modifier" 55 152 158 9 9 [(B "static" 56 152 158 9 9 [(A "static" 57 152 158 9 9 [])])])]); (B "type_identifier" 58 159 166 9 9 [] # "type"); (B "variable_declarator" 59 167 172 9 9 [(B "identifier" 60 167 172 9 9 [] # "name")] # "declarator"); (A ";" 61 172 173 9 9 [])]); (A "}" 62 175 176 11 11 [])] # "body")])]).
Example prettier80_p3 : as_expected prettier80_p3_source prettier80_p3_tree (U "public class Me {
  final Integer test1;

  static Integer test1;

  transient Integer test1;

  static transient Integer test1;

  final static Integer test1;
}
").
Proof. apply run_test_ok. vm_compute. reflexivity. Qed.

(* tests/prettier80/p4.in *)
Definition prettier80_p4_source : ustr := U "public class Me {
   public integer MyReadOnlyProp {
   get ; 

   }

   public double MyReadWriteProp   { get
       ;    set
; 

}

   public string MyWriteOnlyProp { set; }
}
".
Definition prettier80_p4_tree : span := (B "parser_output" 1 0 178 0 14 [(B "class_declaration" 2 0 177 0 13 [(B "modifiers" 3 0 6 0 0 [(B "modifier" 4 0 6 0 0 [(B "public" 5 0 6 0 0 [(A "public" 6 0 6 0 0 [])])])]); (A "class" 7 7 12 0 0 []); (B "identifier" 8 13 15 0 0 [] # "name"); (B "class_body" 9 16 177 0 13 [(A "{" 10 16 17 0 0 []); (B "field_declaration" 11 21 68 1 4 [(B "modifiers" 12 21 27 1 1 [(B "modifier" 13 21 27 1 1 [(B "public" 14 21 27 1 1 [(A "public" 15 21 27 1 1 [])])])]); (B "type_identifier" 16 28 35 1 1 [] # "type"); (B "variable_declarator" 17 36 50 1 1 [(B "identifier" 18 36 50 1 1 [] # "name")] # "declarator"); (B "accessor_list" 19 51 68 1 4 [(A "{" 20 51 52 1 1 []); (B "accessor_declaration" 21 56 61 2 2 [(A "get" 22 56 59 2 2 [] # "accessor"); (A ";" 23 60 61 2 2 [])]); (A "}" 24 67 68 4 4 [])])]); (B "field_declaration" 25 73 132 6 10 [(B "modifiers" 26 73 79 6 6 [(B "modifier" 27 73 79 6 6 [(B "public" 28 73 79 6 6 [(A "public" 29 73 79 6 6 [])])])]); (B "type_identifier" 30 80 86 6 6 [] # "type"); (B "variable_declarator" 31 87 102 6 6 [(B "identifier" 32 87 102 6 6 [] # "name")] # "declarator"); (B "accessor_list" 33 105 132 6 10 [(A "{" 34 105 106 6 6 []); (B "accessor_declaration" 35 107 119 6 7 [(A "get" 36 107 110 6 6 [] # "accessor"); (A ";" 37 118 119 7 7 [])]); (B "accessor_declaration" 38 123 128 7 8 [(A "set" 39 123 126 7 7 [] # "accessor"); (A ";" 40 127 128 8 8 [])]); (A "}" 41 131 132 10 10 [])])]); (B "field_declaration" 42 137 175 12 12 [(B "modifiers" 43 137 143 12 12 [(B "modifier" 44 137 143 12 12 [(B "public" 45 137 143 12 12 [(A "public" 46 137 143 12 12 [])])])]); (B "type_identifier" 47 144 150 12 12 [] # "type"); (B "variable_declarator" 48 151 166 12 12 [(B "identifier" 49 151 166 12 12 [] # "name")] # "declarator"); (B "accessor_list" 50 167 175 12 12 [(A "{" 51 167 168 12 12 []); (B "accessor_declaration" 52 169 173 12 12 [(A "set" 53 169 172 12 12 [] # "accessor"); (A ";" 54 172 173 12 12 [])]); (A "}" 55 174 175 12 12 [])])]); (A "}" 56 176 177 13 13 [])] # "body")])]).
Example prettier80_p4 : as_expected prettier80_p4_source prettier80_p4_tree (U "public class Me {
  public integer MyReadOnlyProp { get; }

  public double MyReadWriteProp { get; set; }

  public string MyWriteOnlyProp { set; }
}
").
Proof. apply run_test_ok. vm_compute. reflexivity. Qed.

(* tests/prettier80/p5.in *)
Definition prettier80_p5_source : ustr := U "global virtual class Me {
   public integer X {private get  ; set  ;
   }

   global integer Y { get; public set; }

   public integer Z { get; protected set; }
}
".
Definition prettier80_p5_tree : span := (B "parser_output" 1 0 163 0 8 [(B "class_declaration" 2 0 162 0 7 [(B "modifiers" 3 0 14 0 0 [(B "modifier" 4 0 6 0 0 [(B "global" 5 0 6 0 0 [(A "global" 6 0 6 0 0 [])])]); (B "modifier" 7 7 14 0 0 [(B "virtual" 8 7 14 0 0 [(A "virtual" 9 7 14 0 0 [])])])]); (A "class" 10 15 20 0 0 []); (B "identifier" 11 21 23 0 0 [] # "name"); (B "class_body" 12 24 162 0 7 [(A "{" 13 24 25 0 0 []); (B "field_declaration" 14 29 73 1 2 [(B "modifiers" 15 29 35 1 1 [(B "modifier" 16 29 35 1 1 [(B "public" 17 29 35 1 1 [(A "public" 18 29 35 1 1 [])])])]); (B "type_identifier" 19 36 43 1 1 [] # "type"); (B "variable_declarator" 20 44 45 1 1 [(B "identifier" 21 44 45 1 1 [] # "name")] # "declarator"); (B "accessor_list" 22 46 73 1 2 [(A "{" 23 46 47 1 1 []); (B "accessor_declaration" 24 47 61 1 1 [(B "modifiers" 25 47 54 1 1 [(B "modifier" 26 47 54 1 1 [(B "private" 27 47 54 1 1 [(A "private" 28 47 54 1 1 [])])])]); (A "get" 29 55 58 1 1 [] # "accessor"); (A ";" 30 60 61 1 1 [])]); (B "accessor_declaration" 31 62 68 1 1 [(A "set" 32 62 65 1 1 [] # "accessor"); (A ";" 33 67 68 1 1 [])]); (A "}" 34 72 73 2 2 [])])]); (B "field_declaration" 35 78 115 4 4 [(B "modifiers" 36 78 84 4 4 [(B "modifier" 37 78 84 4 4 [(B "global" 38 78 84 4 4 [(A "global" 39 78 84 4 4 [])])])]); (B "type_identifier" 40 85 92 4 4 [] # "type"); (B "variable_declarator" 41 93 94 4 4 [(B "identifier" 42 93 94 4 4 [] # "name")] # "declarator"); (B "accessor_list" 43 95 115 4 4 [(A "{" 44 95 96 4 4 []); (B "accessor_declaration" 45 97 101 4 4 [(A "get" 46 97 100 4 4 [] # "accessor"); (A ";" 47 100 101 4 4 [])]); (B "accessor_declaration" 48 102 113 4 4 [(B "modifiers" 49 102 108 4 4 [(B "modifier" 50 102 108 4 4 [(B "public" 51 102 108 4 4 [(A "public" 52 102 108 4 4 [])])])]); (A "set" 53 109 112 4 4 [] # "accessor"); (A ";" 54 112 113 4 4 [])]); (A "}" 55 114 115 4 4 [])])]); (B "field_declaration" 56 120 160 6 6 [(B "modifiers" 57 120 126 6 6 [(B "modifier" 58 120 126 6 6 [(B "public" 59 120 126 6 6 [(A "public" 60 120 126 6 6 [])])])]); (B "type_identifier" 61 127 134 6 6 [] # "type"); (B "variable_declarator" 62 135 136 6 6 [(B "identifier" 63 135 136 6 6 [] # "name")] # "declarator"); (B "accessor_list" 64 137 160 6 6 [(A "{" 65 137 138 6 6 []); (B "accessor_declaration" 66 139 143 6 6 [(A "get" 67 139 142 6 6 [] # "accessor"); (A ";" 68 142 143 6 6 [])]); (B "accessor_declaration" 69 144 158 6 6 [(B "modifiers" 70 144 153 6 6 [(B "modifier" 71 144 153 6 6 [(B "protected" 72 144 153 6 6 [(A "protected" 73 144 153 6 6 [])])])]); (A "set" 74 154 157 6 6 [] # "accessor"); (A ";" 75 157 158 6 6 [])]); (A "}" 76 159 160 6 6 [])])]); (A "}" 77 161 162 7 7 [])] # "body")])]).
Example prettier80_p5 : as_expected prettier80_p5_source prettier80_p5_tree (U "global virtual class Me {
  public integer X { private get; set; }

  global integer Y { get; public set; }

  public integer Z { get; protected set; }
}
").
Proof. apply run_test_ok. vm_compute. reflexivity. Qed.

(* tests/prettier80/p6.in *)
Definition prettier80_p6_source : ustr := U "public class Me {
   public integer prop { get{ return prop;}set; }
}
".
Definition prettier80_p6_tree : span := (B "parser_output" 1 0 70 0 3 [(B "class_declaration" 2 0 69 0 2 [(B "modifiers" 3 0 6 0 0 [(B "modifier" 4 0 6 0 0 [(B "public" 5 0 6 0 0 [(A "public" 6 0 6 0 0 [])])])]); (A "class" 7 7 12 0 0 []); (B "identifier" 8 13 15 0 0 [] # "name"); (B "class_body" 9 16 69 0 2 [(A "{" 10 16 17 0 0 []); (B "field_declaration" 11 21 67 1 1 [(B "modifiers" 12 21 27 1 1 [(B "modifier" 13 21 27 1 1 [(B "public" 14 21 27 1 1 [(A "public" 15 21 27 1 1 [])])])]); (B "type_identifier" 16 28 35 1 1 [] # "type"); (B "variable_declarator" 17 36 40 1 1 [(B "identifier" 18 36 40 1 1 [] # "name")] # "declarator"); (B "accessor_list" 19 41 67 1 1 [(A "{" 20 41 42 1 1 []); (B "accessor_declaration" 21 43 61 1 1 [(A "get" 22 43 46 1 1 [] # "accessor"); (B "block" 23 46 61 1 1 [(A "{" 24 46 47 1 1 []); (B "return_statement" 25 48 60 1 1 [(A "return" 26 48 54 1 1 []); (B "identifier" 27 55 59 1 1 []); (A ";" 28 59 60 1 1 [])]); (A "}" 29 60 61 1 1 [])] # "body")]); (B "accessor_declaration" 30 61 65 1 1 [(A "set" 31 61 64 1 1 [] # "accessor"); (A ";" 32 64 65 1 1 [])]); (A "}" 33 66 67 1 1 [])])]); (A "}" 34 68 69 2 2 [])] # "body")])]).
Example prettier80_p6 : as_expected prettier80_p6_source prettier80_p6_tree (U "public class Me {
  public integer prop {
    get {
      return prop;
    }
    set;
  }
}
").
Proof. apply run_test_ok. vm_compute. reflexivity. Qed.

(* tests/prettier80/post_comment_body_member.in *)
Definition prettier80_post_comment_body_member_source : ustr := U "public class A {
  {
    private final Integer i = s.length(); /*post1*//*post2*/

    private final Integer j = k.length();//p
    // Explicit


    //pre
    private final Integer d = m.length(); /*post1*//*post2*/
    //post


  }
}
".
Definition prettier80_post_comment_body_member_tree : span := (B "parser_output" 1 0 236 0 15 [(B "class_declaration" 2 0 235 0 14 [(B "modifiers" 3 0 6 0 0 [(B "modifier" 4 0 6 0 0 [(B "public" 5 0 6 0 0 [(A "public" 6 0 6 0 0 [])])])]); (A "class" 7 7 12 0 0 []); (B "identifier" 8 13 14 0 0 [] # "name"); (B "class_body" 9 15 235 0 14 [(A "{" 10 15 16 0 0 []); (B "block" 11 19 233 1 13 [(A "{" 12 19 20 1 1 []); (B "local_variable_declaration" 13 25 62 2 2 [(B "modifiers" 14 25 38 2 2 [(B "modifier" 15 25 32 2 2 [(B "private" 16 25 32 2 2 [(A "private" 17 25 32 2 2 [])])]); (B "modifier" 18 33 38 2 2 [(B "final" 19 33 38 2 2 [(A "final" 20 33 38 2 2 [])])])]); (B "type_identifier" 21 39 46 2 2 [] # "type"); (B "variable_declarator" 22 47 61 2 2 [(B "identifier" 23 47 48 2 2 [] # "name"); (B "assignment_operator" 24 49 50 2 2 [(A "=" 25 49 50 2 2 [])]); (B "method_invocation" 26 51 61 2 2 [(B "identifier" 27 51 52 2 2 [] # "object"); (A "." 28 52 53 2 2 []); (B "identifier" 29 53 59 2 2 [] # "name"); (B "argument_list" 30 59 61 2 2 [(A "(" 31 59 60 2 2 []); (A ")" 32 60 61 2 2 [])] # "arguments")] # "value")] # "declarator"); (A ";" 33 61 62 2 2 [])]); (C "block_comment" 34 63 72 2 2 []); (C "block_comment" 35 72 81 2 2 []); (B "local_variable_declaration" 36 87 124 4 4 [(B "modifiers" 37 87 100 4 4 [(B "modifier" 38 87 94 4 4 [(B "private" 39 87 94 4 4 [(A "private" 40 87 94 4 4 [])])]); (B "modifier" 41 95 100 4 4 [(B "final" 42 95 100 4 4 [(A "final" 43 95 100 4 4 [])])])]); (B "type_identifier" 44 101 108 4 4 [] # "type"); (B "variable_declarator" 45 109 123 4 4 [(B "identifier" 46 109 110 4 4 [] # "name"); (B "assignment_operator" 47 111 112 4 4 [(A "=" 48 111 112 4 4 [])]); (B "method_invocation" 49 113 123 4 4 [(B "identifier" 50 113 114 4 4 [] # "object"); (A "." 51 114 115 4 4 []); (B "identifier" 52 115 121 4 4 [] # "name"); (B "argument_list" 53 121 123 4 4 [(A "(" 54 121 122 4 4 []); (A ")" 55 122 123 4 4 [])] # "arguments")] # "value")] # "declarator"); (A ";" 56 123 124 4 4 [])]); (C "line_comment" 57 124 127 4 4 []); (C "line_comment" 58 132 143 5 5 []); (C "line_comment" 59 150 155 8 8 []); (B "local_variable_declaration" 60 160 197 9 9 [(B "modifiers" 61 160 173 9 9 [(B "modifier" 62 160 167 9 9 [(B "private" 63 160 167 9 9 [(A "private" 64 160 167 9 9 [])])]); (B "modifier" 65 168 173 9 9 [(B "final" 66 168 173 9 9 [(A "final" 67 168 173 9 9 [])])])]); (B "type_identifier" 68 174 181 9 9 [] # "type"); (B "variable_declarator" 69 182 196 9 9 [(B "identifier" 70 182 183 9 9 [] # "name"); (B "assignment_operator" 71 184 185 9 9 [(A "=" 72 184 185 9 9 [])]); (B "method_invocation" 73 186 196 9 9 [(B "identifier" 74 186 187 9 9 [] # "object"); (A "." 75 187 188 9 9 []); (B "identifier" 76 188 194 9 9 [] # "name"); (B "argument_list" 77 194 196 9 9 [(A "(" 78 194 195 9 9 []); (A ")" 79 195 196 9 9 [])] # "arguments")] # "value")] # "declarator"); (A ";" 80 196 197 9 9 [])]); (C "block_comment" 81 198 207 9 9 []); (C "block_comment" 82 207 216 9 9 []); (C "line_comment" 83 221 227 10 10 []); (A "}" 84 232 233 13 13 [])]); (A "}" 85 234 235 14 14 [])] # "body")])]).
Example prettier80_post_comment_body_member : as_expected prettier80_post_comment_body_member_source prettier80_post_comment_body_member_tree (U "public class A {
  {
    private final Integer i = s.length(); /*post1*/ /*post2*/

    private final Integer j = k.length(); //p
    // Explicit

    //pre
    private final Integer d = m.length(); /*post1*/ /*post2*/
    //post
  }
}
").
Proof. apply run_test_ok. vm_compute. reflexivity. Qed.

(* tests/prettier80/prop.in *)
Definition prettier80_prop_source : ustr := U "public class Me {
     public integer prop   {
        get  {    return 
        prop ;
        }


      set   { prop      = value   
      ; 

      }
   }
}
".
Definition prettier80_prop_tree : span := (B "parser_output" 1 0 160 0 13 [(B "class_declaration" 2 0 159 0 12 [(B "modifiers" 3 0 6 0 0 [(B "modifier" 4 0 6 0 0 [(B "public" 5 0 6 0 0 [(A "public" 6 0 6 0 0 [])])])]); (A "class" 7 7 12 0 0 []); (B "identifier" 8 13 15 0 0 [] # "name"); (B "class_body" 9 16 159 0 12 [(A "{" 10 16 17 0 0 []); (B "field_declaration" 11 23 157 1 11 [(B "modifiers" 12 23 29 1 1 [(B "modifier" 13 23 29 1 1 [(B "public" 14 23 29 1 1 [(A "public" 15 23 29 1 1 [])])])]); (B "type_identifier" 16 30 37 1 1 [] # "type"); (B "variable_declarator" 17 38 42 1 1 [(B "identifier" 18 38 42 1 1 [] # "name")] # "declarator"); (B "accessor_list" 19 45 157 1 11 [(A "{" 20 45 46 1 1 []); (B "accessor_declaration" 21 55 97 2 4 [(A "get" 22 55 58 2 2 [] # "accessor"); (B "block" 23 60 97 2 4 [(A "{" 24 60 61 2 2 []); (B "return_statement" 25 65 87 2 3 [(A "return" 26 65 71 2 2 []); (B "identifier" 27 81 85 3 3 []); (A ";" 28 86 87 3 3 [])]); (A "}" 29 96 97 4 4 [])] # "body")]); (B "accessor_declaration" 30 106 152 7 10 [(A "set" 31 106 109 7 7 [] # "accessor"); (B "block" 32 112 152 7 10 [(A "{" 33 112 113 7 7 []); (B "expression_statement" 34 114 142 7 8 [(B "assignment_expression" 35 114 131 7 7 [(B "identifier" 36 114 118 7 7 [] # "left"); (B "assignment_operator" 37 124 125 7 7 [(A "=" 38 124 125 7 7 [])] # "operator"); (B "identifier" 39 126 131 7 7 [] # "right")]); (A ";" 40 141 142 8 8 [])]); (A "}" 41 151 152 10 10 [])] # "body")]); (A "}" 42 156 157 11 11 [])])]); (A "}" 43 158 159 12 12 [])] # "body")])]).
Example prettier80_prop : as_expected prettier80_prop_source prettier80_prop_tree (U "public class Me {
  public integer prop {
    get {
      return prop;
    }
    set {
      prop = value;
    }
  }
}
").
Proof. apply run_test_ok. vm_compute. reflexivity. Qed.

(* tests/prettier80/prop6.in *)
Definition prettier80_prop6_source : ustr := U "public class Me {
   public integer prop {
      get { return prop; }
      set;
   }
}
".
Definition prettier80_prop6_tree : span := (B "parser_output" 1 0 88 0 6 [(B "class_declaration" 2 0 87 0 5 [(B "modifiers" 3 0 6 0 0 [(B "modifier" 4 0 6 0 0 [(B "public" 5 0 6 0 0 [(A "public" 6 0 6 0 0 [])])])]); (A "class" 7 7 12 0 0 []); (B "identifier" 8 13 15 0 0 [] # "name"); (B "class_body" 9 16 87 0 5 [(A "{" 10 16 17 0 0 []); (B "field_declaration" 11 21 85 1 4 [(B "modifiers" 12 21 27 1 1 [(B "modifier" 13 21 27 1 1 [(B "public" 14 21 27 1 1 [(A "public" 15 21 27 1 1 [])])])]); (B "type_identifier" 16 28 35 1 1 [] # "type"); (B "variable_declarator" 17 36 40 1 1 [(B "identifier" 18 36 40 1 1 [] # "name")] # "declarator"); (B "accessor_list" 19 41 85 1 4 [(A "{" 20 41 42 1 1 []); (B "accessor_declaration" 21 49 69 2 2 [(A "get" 22 49 52 2 2 [] # "accessor"); (B "block" 23 53 69 2 2 [(A "{" 24 53 54 2 2 []); (B "return_statement" 25 55 67 2 2 [(A "return" 26 55 61 2 2 []); (B "identifier" 27 62 66 2 2 []); (A ";" 28 66 67 2 2 [])]); (A "}" 29 68 69 2 2 [])] # "body")]); (B "accessor_declaration" 30 76 80 3 3 [(A "set" 31 76 79 3 3 [] # "accessor"); (A ";" 32 79 80 3 3 [])]); (A "}" 33 84 85 4 4 [])])]); (A "}" 34 86 87 5 5 [])] # "body")])]).
Example prettier80_prop6 : as_expected prettier80_prop6_source prettier80_prop6_tree (U "public class Me {
  public integer prop {
    get {
      return prop;
    }
    set;
  }
}
").
Proof. apply run_test_ok. vm_compute. reflexivity. Qed.

(* tests/prettier80/s12.in *)
Definition prettier80_s12_source : ustr := U "public class Me {
  {
    for (List<Account> accs : [SELECT Id FROM Account]) {
      for (Account a : accs) {
        System.debug(a);
      }
    }
  }
}
".
Definition prettier80_s12_tree : span := (B "parser_output" 1 0 156 0 9 [(B "class_declaration" 2 0 155 0 8 [(B "modifiers" 3 0 6 0 0 [(B "modifier" 4 0 6 0 0 [(B "public" 5 0 6 0 0 [(A "public" 6 0 6 0 0 [])])])]); (A "class" 7 7 12 0 0 []); (B "identifier" 8 13 15 0 0 [] # "name"); (B "class_body" 9 16 155 0 8 [(A "{" 10 16 17 0 0 []); (B "block" 11 20 153 1 7 [(A "{" 12 20 21 1 1 []); (B "enhanced_for_statement" 13 26 149 2 6 [(A "for" 14 26 29 2 2 []); (A "(" 15 30 31 2 2 []); (B "generic_type" 16 31 44 2 2 [(B "type_identifier" 17 31 35 2 2 []); (B "type_arguments" 18 35 44 2 2 [(A "<" 19 35 36 2 2 []); (B "type_identifier" 20 36 43 2 2 []); (A ">" 21 43 44 2 2 [])])] # "type"); (B "identifier" 22 45 49 2 2 [] # "name"); (A ":" 23 50 51 2 2 []); (B "query_expression" 24 52 76 2 2 [(A "[" 25 52 53 2 2 []); (B "soql_query_body" 26 53 75 2 2 [(B "select_clause" 27 53 62 2 2 [(A "SELECT" 28 53 59 2 2 []); (B "field_identifier" 29 60 62 2 2 [(B "identifier" 30 60 62 2 2 [])])] # "select_clause"); (B "from_clause" 31 63 75 2 2 [(A "FROM" 32 63 67 2 2 []); (B "storage_identifier" 33 68 75 2 2 [(B "identifier" 34 68 75 2 2 [])])] # "from_clause")]); (A "]" 35 75 76 2 2 [])] # "value"); (A ")" 36 76 77 2 2 []); (B "block" 37 78 149 2 6 [(A "{" 38 78 79 2 2 []); (B "enhanced_for_statement" 39 86 143 3 5 [(A "for" 40 86 89 3 3 []); (A "(" 41 90 91 3 3 []); (B "type_identifier" 42 91 98 3 3 [] # "type"); (B "identifier" 43 99 100 3 3 [] # "name"); (A ":" 44 101 102 3 3 []); (B "identifier" 45 103 107 3 3 [] # "value"); (A ")" 46 107 108 3 3 []); (B "block" 47 109 143 3 5 [(A "{" 48 109 110 3 3 []); (B "expression_statement" 49 119 135 4 4 [(B "method_invocation" 50 119 134 4 4 [(B "identifier" 51 119 125 4 4 [] # "object"); (A "." 52 125 126 4 4 []); (B "identifier" 53 126 131 4 4 [] # "name"); (B "argument_list" 54 131 134 4 4 [(A "(" 55 131 132 4 4 []); (B "identifier" 56 132 133 4 4 []); (A ")" 57 133 134 4 4 [])] # "arguments")]); (A ";" 58 134 135 4 4 [])]); (A "}" 59 142 143 5 5 [])] # "body")]); (A "}" 60 148 149 6 6 [])] # "body")]); (A "}" 61 152 153 7 7 [])]); (A "}" 62 154 155 8 8 [])] # "body")])]).
Example prettier80_s12 : as_expected prettier80_s12_source prettier80_s12_tree (U "public class Me {
  {
    for (List<Account> accs : [SELECT Id FROM Account]) {
      for (Account a : accs) {
        System.debug(a);
      }
    }
  }
}
").
Proof. apply run_test_ok. vm_compute. reflexivity. Qed.

(* tests/prettier80/s2.in *)
Definition prettier80_s2_source : ustr := U "public class M {
  {
    List<Account> accs = [SELECT Id FROM Account WHERE Name = :('x' + 'xx')];
  }
}
".
Definition prettier80_s2_tree : span := (B "parser_output" 1 0 105 0 5 [(B "class_declaration" 2 0 104 0 4 [(B "modifiers" 3 0 6 0 0 [(B "modifier" 4 0 6 0 0 [(B "public" 5 0 6 0 0 [(A "public" 6 0 6 0 0 [])])])]); (A "class" 7 7 12 0 0 []); (B "identifier" 8 13 14 0 0 [] # "name"); (B "class_body" 9 15 104 0 4 [(A "{" 10 15 16 0 0 []); (B "block" 11 19 102 1 3 [(A "{" 12 19 20 1 1 []); (B "local_variable_declaration" 13 25 98 2 2 [(B "generic_type" 14 25 38 2 2 [(B "type_identifier" 15 25 29 2 2 []); (B "type_arguments" 16 29 38 2 2 [(A "<" 17 29 30 2 2 []); (B "type_identifier" 18 30 37 2 2 []); (A ">" 19 37 38 2 2 [])])] # "type"); (B "variable_declarator" 20 39 97 2 2 [(B "identifier" 21 39 43 2 2 [] # "name"); (B "assignment_operator" 22 44 45 2 2 [(A "=" 23 44 45 2 2 [])]); (B "query_expression" 24 46 97 2 2 [(A "[" 25 46 47 2 2 []); (B "soql_query_body" 26 47 96 2 2 [(B "select_clause" 27 47 56 2 2 [(A "SELECT" 28 47 53 2 2 []); (B "field_identifier" 29 54 56 2 2 [(B "identifier" 30 54 56 2 2 [])])] # "select_clause"); (B "from_clause" 31 57 69 2 2 [(A "FROM" 32 57 61 2 2 []); (B "storage_identifier" 33 62 69 2 2 [(B "identifier" 34 62 69 2 2 [])])] # "from_clause"); (B "where_clause" 35 70 96 2 2 [(A "WHERE" 36 70 75 2 2 []); (B "comparison_expression" 37 76 96 2 2 [(B "field_identifier" 38 76 80 2 2 [(B "identifier" 39 76 80 2 2 [])]); (B "value_comparison_operator" 40 81 82 2 2 [(A "=" 41 81 82 2 2 [])]); (B "bound_apex_expression" 42 83 96 2 2 [(A ":" 43 83 84 2 2 []); (B "parenthesized_expression" 44 84 96 2 2 [(A "(" 45 84 85 2 2 []); (B "binary_expression" 46 85 95 2 2 [(B "string_literal" 47 85 88 2 2 [] # "left"); (A "+" 48 89 90 2 2 [] # "operator"); (B "string_literal" 49 91 95 2 2 [] # "right")]); (A ")" 50 95 96 2 2 [])])])])] # "where_clause")]); (A "]" 51 96 97 2 2 [])] # "value")] # "declarator"); (A ";" 52 97 98 2 2 [])]); (A "}" 53 101 102 3 3 [])]); (A "}" 54 103 104 4 4 [])] # "body")])]).
Example prettier80_s2 : as_expected prettier80_s2_source prettier80_s2_tree (U "public class M {
  {
    List<Account> accs = [SELECT Id FROM Account WHERE Name = :('x' + 'xx')];
  }
}
").
Proof. apply run_test_ok. vm_compute. reflexivity. Qed.

(* tests/prettier80/s3.in *)
Definition prettier80_s3_source : ustr := U "public class Me {
  {
    String name = [SELECT Name FROM Account WHERE Id = :A.Id][0] .Name;
  }
}
".
Definition prettier80_s3_tree : span := (B "parser_output" 1 0 100 0 5 [(B "class_declaration" 2 0 99 0 4 [(B "modifiers" 3 0 6 0 0 [(B "modifier" 4 0 6 0 0 [(B "public" 5 0 6 0 0 [(A "public" 6 0 6 0 0 [])])])]); (A "class" 7 7 12 0 0 []); (B "identifier" 8 13 15 0 0 [] # "name"); (B "class_body" 9 16 99 0 4 [(A "{" 10 16 17 0 0 []); (B "block" 11 20 97 1 3 [(A "{" 12 20 21 1 1 []); (B "local_variable_declaration" 13 26 93 2 2 [(B "type_identifier" 14 26 32 2 2 [] # "type"); (B "variable_declarator" 15 33 92 2 2 [(B "identifier" 16 33 37 2 2 [] # "name"); (B "assignment_operator" 17 38 39 2 2 [(A "=" 18 38 39 2 2 [])]); (B "field_access" 19 40 92 2 2 [(B "array_access" 20 40 86 2 2 [(B "query_expression" 21 40 83 2 2 [(A "[" 22 40 41 2 2 []); (B "soql_query_body" 23 41 82 2 2 [(B "select_clause" 24 41 52 2 2 [(A "SELECT" 25 41 47 2 2 []); (B "field_identifier" 26 48 52 2 2 [(B "identifier" 27 48 52 2 2 [])])] # "select_clause"); (B "from_clause" 28 53 65 2 2 [(A "FROM" 29 53 57 2 2 []); (B "storage_identifier" 30 58 65 2 2 [(B "identifier" 31 58 65 2 2 [])])] # "from_clause"); (B "where_clause" 32 66 82 2 2 [(A "WHERE" 33 66 71 2 2 []); (B "comparison_expression" 34 72 82 2 2 [(B "field_identifier" 35 72 74 2 2 [(B "identifier" 36 72 74 2 2 [])]); (B "value_comparison_operator" 37 75 76 2 2 [(A "=" 38 75 76 2 2 [])]); (B "bound_apex_expression" 39 77 82 2 2 [(A ":" 40 77 78 2 2 []); (B "field_access" 41 78 82 2 2 [(B "identifier" 42 78 79 2 2 [] # "object"); (A "." 43 79 80 2 2 []); (B "identifier" 44 80 82 2 2 [] # "field")])])])] # "where_clause")]); (A "]" 45 82 83 2 2 [])] # "array"); (A "[" 46 83 84 2 2 []); (B "int" 47 84 85 2 2 [] # "index"); (A "]" 48 85 86 2 2 [])] # "object"); (A "." 49 87 88 2 2 []); (B "identifier" 50 88 92 2 2 [] # "field")] # "value")] # "declarator"); (A ";" 51 92 93 2 2 [])]); (A "}" 52 96 97 3 3 [])]); (A "}" 53 98 99 4 4 [])] # "body")])]).
Example prettier80_s3 : as_expected prettier80_s3_source prettier80_s3_tree (U "public class Me {
  {
    String name = [SELECT Name FROM Account WHERE Id = :A.Id][0].Name;
  }
}
").
Proof. apply run_test_ok. vm_compute. reflexivity. Qed.

(* tests/prettier80/s4.in *)
Definition prettier80_s4_source : ustr := U "public class Me {
     {
          List<Account> accs = [
                 SELECT Id   
                     FROM Account
                       WHERE 
                Name = :
                [SELECT Name FROM Account WHERE Id = :A.Id ].Name    ];

     }
}
".
Definition prettier80_s4_tree : span := (B "parser_output" 1 0 259 0 11 [(B "class_declaration" 2 0 258 0 10 [(B "modifiers" 3 0 6 0 0 [(B "modifier" 4 0 6 0 0 [(B "public" 5 0 6 0 0 [(A "public" 6 0 6 0 0 [])])])]); (A "class" 7 7 12 0 0 []); (B "identifier" 8 13 15 0 0 [] # "name"); (B "class_body" 9 16 258 0 10 [(A "{" 10 16 17 0 0 []); (B "block" 11 23 256 1 9 [(A "{" 12 23 24 1 1 []); (B "local_variable_declaration" 13 35 248 2 7 [(B "generic_type" 14 35 48 2 2 [(B "type_identifier" 15 35 39 2 2 []); (B "type_arguments" 16 39 48 2 2 [(A "<" 17 39 40 2 2 []); (B "type_identifier" 18 40 47 2 2 []); (A ">" 19 47 48 2 2 [])])] # "type"); (B "variable_declarator" 20 49 247 2 7 [(B "identifier" 21 49 53 2 2 [] # "name"); (B "assignment_operator" 22 54 55 2 2 [(A "=" 23 54 55 2 2 [])]); (B "query_expression" 24 56 247 2 7 [(A "[" 25 56 57 2 2 []); (B "soql_query_body" 26 75 242 3 7 [(B "select_clause" 27 75 84 3 3 [(A "SELECT" 28 75 81 3 3 []); (B "field_identifier" 29 82 84 3 3 [(B "identifier" 30 82 84 3 3 [])])] # "select_clause"); (B "from_clause" 31 109 121 4 4 [(A "FROM" 32 109 113 4 4 []); (B "storage_identifier" 33 114 121 4 4 [(B "identifier" 34 114 121 4 4 [])])] # "from_clause"); (B "where_clause" 35 145 242 5 7 [(A "WHERE" 36 145 150 5 5 []); (B "comparison_expression" 37 168 242 6 7 [(B "field_identifier" 38 168 172 6 6 [(B "identifier" 39 168 172 6 6 [])]); (B "value_comparison_operator" 40 173 174 6 6 [(A "=" 41 173 174 6 6 [])]); (B "bound_apex_expression" 42 175 242 6 7 [(A ":" 43 175 176 6 6 []); (B "field_access" 44 193 242 7 7 [(B "query_expression" 45 193 237 7 7 [(A "[" 46 193 194 7 7 []); (B "soql_query_body" 47 194 235 7 7 [(B "select_clause" 48 194 205 7 7 [(A "SELECT" 49 194 200 7 7 []); (B "field_identifier" 50 201 205 7 7 [(B "identifier" 51 201 205 7 7 [])])] # "select_clause"); (B "from_clause" 52 206 218 7 7 [(A "FROM" 53 206 210 7 7 []); (B "storage_identifier" 54 211 218 7 7 [(B "identifier" 55 211 218 7 7 [])])] # "from_clause"); (B "where_clause" 56 219 235 7 7 [(A "WHERE" 57 219 224 7 7 []); (B "comparison_expression" 58 225 235 7 7 [(B "field_identifier" 59 225 227 7 7 [(B "identifier" 60 225 227 7 7 [])]); (B "value_comparison_operator" 61 228 229 7 7 [(A "=" 62 228 229 7 7 [])]); (B "bound_apex_expression" 63 230 235 7 7 [(A ":" 64 230 231 7 7 []); (B "field_access" 65 231 235 7 7 [(B "identifier" 66 231 232 7 7 [] # "object"); (A "." 67 232 233 7 7 []); (B "identifier" 68 233 235 7 7 [] # "field")])])])] # "where_clause")]); (A "]" 69 236 237 7 7 [])] # "object"); (A "." 70 237 238 7 7 []); (B "identifier" 71 238 242 7 7 [] # "field")])])])] # "where_clause")]); (A "]" 72 246 247 7 7 [])] # "value")] # "declarator"); (A ";" 73 247 248 7 7 [])]); (A "}" 74 255 256 9 9 [])]); (A "}" 75 257 258 10 10 [])] # "body")])]).
Example prettier80_s4 : as_expected prettier80_s4_source prettier80_s4_tree (U "public class Me {
  {
    List<Account> accs = [
      SELECT Id
      FROM Account
      WHERE Name = :[SELECT Name FROM Account WHERE Id = :A.Id].Name
    ];
  }
}
").
Proof. apply run_test_ok. vm_compute. reflexivity. Qed.

(* tests/prettier80/s7.in *)
Definition prettier80_s7_source : ustr := U "public class Me {
  {
    Integer i = 1;
    List<Account> accs = [SELECT Id FROM Account OFFSET :i];
  }
}

".
Definition prettier80_s7_tree : span := (B "parser_output" 1 0 109 0 7 [(B "class_declaration" 2 0 107 0 5 [(B "modifiers" 3 0 6 0 0 [(B "modifier" 4 0 6 0 0 [(B "public" 5 0 6 0 0 [(A "public" 6 0 6 0 0 [])])])]); (A "class" 7 7 12 0 0 []); (B "identifier" 8 13 15 0 0 [] # "name"); (B "class_body" 9 16 107 0 5 [(A "{" 10 16 17 0 0 []); (B "block" 11 20 105 1 4 [(A "{" 12 20 21 1 1 []); (B "local_variable_declaration" 13 26 40 2 2 [(B "type_identifier" 14 26 33 2 2 [] # "type"); (B "variable_declarator" 15 34 39 2 2 [(B "identifier" 16 34 35 2 2 [] # "name"); (B "assignment_operator" 17 36 37 2 2 [(A "=" 18 36 37 2 2 [])]); (B "int" 19 38 39 2 2 [] # "value")] # "declarator"); (A ";" 20 39 40 2 2 [])]); (B "local_variable_declaration" 21 45 101 3 3 [(B "generic_type" 22 45 58 3 3 [(B "type_identifier" 23 45 49 3 3 []); (B "type_arguments" 24 49 58 3 3 [(A "<" 25 49 50 3 3 []); (B "type_identifier" 26 50 57 3 3 []); (A ">" 27 57 58 3 3 [])])] # "type"); (B "variable_declarator" 28 59 100 3 3 [(B "identifier" 29 59 63 3 3 [] # "name"); (B "assignment_operator" 30 64 65 3 3 [(A "=" 31 64 65 3 3 [])]); (B "query_expression" 32 66 100 3 3 [(A "[" 33 66 67 3 3 []); (B "soql_query_body" 34 67 99 3 3 [(B "select_clause" 35 67 76 3 3 [(A "SELECT" 36 67 73 3 3 []); (B "field_identifier" 37 74 76 3 3 [(B "identifier" 38 74 76 3 3 [])])] # "select_clause"); (B "from_clause" 39 77 89 3 3 [(A "FROM" 40 77 81 3 3 []); (B "storage_identifier" 41 82 89 3 3 [(B "identifier" 42 82 89 3 3 [])])] # "from_clause"); (B "offset_clause" 43 90 99 3 3 [(A "OFFSET" 44 90 96 3 3 []); (B "bound_apex_expression" 45 97 99 3 3 [(A ":" 46 97 98 3 3 []); (B "identifier" 47 98 99 3 3 [])])] # "offset_clause")]); (A "]" 48 99 100 3 3 [])] # "value")] # "declarator"); (A ";" 49 100 101 3 3 [])]); (A "}" 50 104 105 4 4 [])]); (A "}" 51 106 107 5 5 [])] # "body")])]).
Example prettier80_s7 : as_expected prettier80_s7_source prettier80_s7_tree (U "public class Me {
  {
    Integer i = 1;
    List<Account> accs = [SELECT Id FROM Account OFFSET :i];
  }
}
").
Proof. apply run_test_ok. vm_compute. reflexivity. Qed.

(* tests/prettier80/simple_chaining_and_safty.in *)
Definition prettier80_simple_chaining_and_safty_source : ustr := U "class Chaining {
  {
    a[0].super.c();
    super.a()?.b();
    super.a.b();

    a[0]?.super.c();
    super.a?.b();
    super?.a?.b();
  }
}
".
Definition prettier80_simple_chaining_and_safty_tree : span := (B "parser_output" 1 0 143 0 11 [(B "class_declaration" 2 0 142 0 10 [(A "class" 3 0 5 0 0 []); (B "identifier" 4 6 14 0 0 [] # "name"); (B "class_body" 5 15 142 0 10 [(A "{" 6 15 16 0 0 []); (B "block" 7 19 140 1 9 [(A "{" 8 19 20 1 1 []); (B "expression_statement" 9 25 40 2 2 [(B "method_invocation" 10 25 39 2 2 [(B "field_access" 11 25 35 2 2 [(B "array_access" 12 25 29 2 2 [(B "identifier" 13 25 26 2 2 [] # "array"); (A "[" 14 26 27 2 2 []); (B "int" 15 27 28 2 2 [] # "index"); (A "]" 16 28 29 2 2 [])] # "object"); (A "." 17 29 30 2 2 []); (B "identifier" 18 30 35 2 2 [] # "field")] # "object"); (A "." 19 35 36 2 2 []); (B "identifier" 20 36 37 2 2 [] # "name"); (B "argument_list" 21 37 39 2 2 [(A "(" 22 37 38 2 2 []); (A ")" 23 38 39 2 2 [])] # "arguments")]); (A ";" 24 39 40 2 2 [])]); (B "expression_statement" 25 45 60 3 3 [(B "method_invocation" 26 45 59 3 3 [(B "method_invocation" 27 45 54 3 3 [(B "super" 28 45 50 3 3 [] # "object"); (A "." 29 50 51 3 3 []); (B "identifier" 30 51 52 3 3 [] # "name"); (B "argument_list" 31 52 54 3 3 [(A "(" 32 52 53 3 3 []); (A ")" 33 53 54 3 3 [])] # "arguments")] # "object"); (B "safe_navigation_operator" 34 54 56 3 3 [(A "?." 35 54 56 3 3 [])]); (B "identifier" 36 56 57 3 3 [] # "name"); (B "argument_list" 37 57 59 3 3 [(A "(" 38 57 58 3 3 []); (A ")" 39 58 59 3 3 [])] # "arguments")]); (A ";" 40 59 60 3 3 [])]); (B "expression_statement" 41 65 77 4 4 [(B "method_invocation" 42 65 76 4 4 [(B "field_access" 43 65 72 4 4 [(B "super" 44 65 70 4 4 [] # "object"); (A "." 45 70 71 4 4 []); (B "identifier" 46 71 72 4 4 [] # "field")] # "object"); (A "." 47 72 73 4 4 []); (B "identifier" 48 73 74 4 4 [] # "name"); (B "argument_list" 49 74 76 4 4 [(A "(" 50 74 75 4 4 []); (A ")" 51 75 76 4 4 [])] # "arguments")]); (A ";" 52 76 77 4 4 [])]); (B "expression_statement" 53 83 99 6 6 [(B "method_invocation" 54 83 98 6 6 [(B "field_access" 55 83 94 6 6 [(B "array_access" 56 83 87 6 6 [(B "identifier" 57 83 84 6 6 [] # "array"); (A "[" 58 84 85 6 6 []); (B "int" 59 85 86 6 6 [] # "index"); (A "]" 60 86 87 6 6 [])] # "object"); (B "safe_navigation_operator" 61 87 89 6 6 [(A "?." 62 87 89 6 6 [])]); (B "identifier" 63 89 94 6 6 [] # "field")] # "object"); (A "." 64 94 95 6 6 []); (B "identifier" 65 95 96 6 6 [] # "name"); (B "argument_list" 66 96 98 6 6 [(A "(" 67 96 97 6 6 []); (A ")" 68 97 98 6 6 [])] # "arguments")]); (A ";" 69 98 99 6 6 [])]); (B "expression_statement" 70 104 117 7 7 [(B "method_invocation" 71 104 116 7 7 [(B "field_access" 72 104 111 7 7 [(B "super" 73 104 109 7 7 [] # "object"); (A "." 74 109 110 7 7 []); (B "identifier" 75 110 111 7 7 [] # "field")] # "object"); (B "safe_navigation_operator" 76 111 113 7 7 [(A "?." 77 111 113 7 7 [])]); (B "identifier" 78 113 114 7 7 [] # "name"); (B "argument_list" 79 114 116 7 7 [(A "(" 80 114 115 7 7 []); (A ")" 81 115 116 7 7 [])] # "arguments")]); (A ";" 82 116 117 7 7 [])]); (B "expression_statement" 83 122 136 8 8 [(B "method_invocation" 84 122 135 8 8 [(B "field_access" 85 122 130 8 8 [(B "super" 86 122 127 8 8 [] # "object"); (B "safe_navigation_operator" 87 127 129 8 8 [(A "?." 88 127 129 8 8 [])]); (B "identifier" 89 129 130 8 8 [] # "field")] # "object"); (B "safe_navigation_operator" 90 130 132 8 8 [(A "?." 91 130 132 8 8 [])]); (B "identifier" 92 132 133 8 8 [] # "name"); (B "argument_list" 93 133 135 8 8 [(A "(" 94 133 134 8 8 []); (A ")" 95 134 135 8 8 [])] # "arguments")]); (A ";" 96 135 136 8 8 [])]); (A "}" 97 139 140 9 9 [])]); (A "}" 98 141 142 10 10 [])] # "body")])]).
Example prettier80_simple_chaining_and_safty : as_expected prettier80_simple_chaining_and_safty_source prettier80_simple_chaining_and_safty_tree (U "class Chaining {
  {
    a[0].super.c();
    super.a()?.b();
    super.a.b();

    a[0]?.super.c();
    super.a?.b();
    super?.a?.b();
  }
}
").
Proof. apply run_test_ok. vm_compute. reflexivity. Qed.

(* tests/prettier80/soql1.in *)
Definition prettier80_soql1_source : ustr := U "public class A {
  {
    return [
      SELECT
        Id 
      FROM property__c
      WHERE
        (title__c LIKE :key
        OR city__c LIKE :key)
        AND (title__c LIKE :visualKey
        OR tags__c LIKE :visualKey)
        AND price__c >= :minPrice
      WITH SECURITY_ENFORCED
      ORDER BY price__c
      LIMIT 100
    ];
  }
}
".
Definition prettier80_soql1_tree : span := (B "parser_output" 1 0 342 0 18 [(B "class_declaration" 2 0 341 0 17 [(B "modifiers" 3 0 6 0 0 [(B "modifier" 4 0 6 0 0 [(B "public" 5 0 6 0 0 [(A "public" 6 0 6 0 0 [])])])]); (A "class" 7 7 12 0 0 []); (B "identifier" 8 13 14 0 0 [] # "name"); (B "class_body" 9 15 341 0 17 [(A "{" 10 15 16 0 0 []); (B "block" 11 19 339 1 16 [(A "{" 12 19 20 1 1 []); (B "return_statement" 13 25 335 2 15 [(A "return" 14 25 31 2 2 []); (B "query_expression" 15 32 334 2 15 [(A "[" 16 32 33 2 2 []); (B "soql_query_body" 17 40 328 3 14 [(B "select_clause" 18 40 57 3 4 [(A "SELECT" 19 40 46 3 3 []); (B "field_identifier" 20 55 57 4 4 [(B "identifier" 21 55 57 4 4 [])])] # "select_clause"); (B "from_clause" 22 65 81 5 5 [(A "FROM" 23 65 69 5 5 []); (B "storage_identifier" 24 70 81 5 5 [(B "identifier" 25 70 81 5 5 [])])] # "from_clause"); (B "where_clause" 26 88 259 6 11 [(A "WHERE" 27 88 93 6 6 []); (B "and_expression" 28 102 259 7 11 [(A "(" 29 102 103 7 7 []); (B "or_expression" 30 103 150 7 8 [(B "comparison_expression" 31 103 121 7 7 [(B "field_identifier" 32 103 111 7 7 [(B "identifier" 33 103 111 7 7 [])]); (B "value_comparison_operator" 34 112 116 7 7 [(A "LIKE" 35 112 116 7 7 [])]); (B "bound_apex_expression" 36 117 121 7 7 [(A ":" 37 117 118 7 7 []); (B "identifier" 38 118 121 7 7 [])])]); (A "OR" 39 130 132 8 8 []); (B "comparison_expression" 40 133 150 8 8 [(B "field_identifier" 41 133 140 8 8 [(B "identifier" 42 133 140 8 8 [])]); (B "value_comparison_operator" 43 141 145 8 8 [(A "LIKE" 44 141 145 8 8 [])]); (B "bound_apex_expression" 45 146 150 8 8 [(A ":" 46 146 147 8 8 []); (B "identifier" 47 147 150 8 8 [])])])]); (A ")" 48 150 151 8 8 []); (A "AND" 49 160 163 9 9 []); (A "(" 50 164 165 9 9 []); (B "or_expression" 51 165 224 9 10 [(B "comparison_expression" 52 165 189 9 9 [(B "field_identifier" 53 165 173 9 9 [(B "identifier" 54 165 173 9 9 [])]); (B "value_comparison_operator" 55 174 178 9 9 [(A "LIKE" 56 174 178 9 9 [])]); (B "bound_apex_expression" 57 179 189 9 9 [(A ":" 58 179 180 9 9 []); (B "identifier" 59 180 189 9 9 [])])]); (A "OR" 60 198 200 10 10 []); (B "comparison_expression" 61 201 224 10 10 [(B "field_identifier" 62 201 208 10 10 [(B "identifier" 63 201 208 10 10 [])]); (B "value_comparison_operator" 64 209 213 10 10 [(A "LIKE" 65 209 213 10 10 [])]); (B "bound_apex_expression" 66 214 224 10 10 [(A ":" 67 214 215 10 10 []); (B "identifier" 68 215 224 10 10 [])])])]); (A ")" 69 224 225 10 10 []); (A "AND" 70 234 237 11 11 []); (B "comparison_expression" 71 238 259 11 11 [(B "field_identifier" 72 238 246 11 11 [(B "identifier" 73 238 246 11 11 [])]); (B "value_comparison_operator" 74 247 249 11 11 [(A ">=" 75 247 249 11 11 [])]); (B "bound_apex_expression" 76 250 259 11 11 [(A ":" 77 250 251 11 11 []); (B "identifier" 78 251 259 11 11 [])])])])] # "where_clause"); (B "with_clause" 79 266 288 12 12 [(A "WITH" 80 266 270 12 12 []); (B "with_type" 81 271 288 12 12 [(A "SECURITY_ENFORCED" 82 271 288 12 12 [])])] # "with_clause"); (B "order_by_clause" 83 295 312 13 13 [(A "ORDER" 84 295 300 13 13 []); (A "BY" 85 301 303 13 13 []); (B "order_expression" 86 304 312 13 13 [(B "field_identifier" 87 304 312 13 13 [(B "identifier" 88 304 312 13 13 [])])])] # "order_by_clause"); (B "limit_clause" 89 319 328 14 14 [(A "LIMIT" 90 319 324 14 14 []); (B "int" 91 325 328 14 14 [])] # "limit_clause")]); (A "]" 92 333 334 15 15 [])]); (A ";" 93 334 335 15 15 [])]); (A "}" 94 338 339 16 16 [])]); (A "}" 95 340 341 17 17 [])] # "body")])]).
Example prettier80_soql1 : as_expected prettier80_soql1_source prettier80_soql1_tree (U "public class A {
  {
    return [
      SELECT Id
      FROM property__c
      WHERE
        (title__c LIKE :key
        OR city__c LIKE :key)
        AND (title__c LIKE :visualKey
        OR tags__c LIKE :visualKey)
        AND price__c >= :minPrice
      WITH SECURITY_ENFORCED
      ORDER BY price__c
      LIMIT 100
    ];
  }
}
").
Proof. apply run_test_ok. vm_compute. reflexivity. Qed.

(* tests/prettier80/soql10.in *)
Definition prettier80_soql10_source : ustr := U "public class Me {
     {
          List<Account> accs =
          [SELECT Id,   Name  FROM Account

          ]  ;
     }
}
".
Definition prettier80_soql10_tree : span := (B "parser_output" 1 0 124 0 8 [(B "class_declaration" 2 0 123 0 7 [(B "modifiers" 3 0 6 0 0 [(B "modifier" 4 0 6 0 0 [(B "public" 5 0 6 0 0 [(A "public" 6 0 6 0 0 [])])])]); (A "class" 7 7 12 0 0 []); (B "identifier" 8 13 15 0 0 [] # "name"); (B "class_body" 9 16 123 0 7 [(A "{" 10 16 17 0 0 []); (B "block" 11 23 121 1 6 [(A "{" 12 23 24 1 1 []); (B "local_variable_declaration" 13 35 114 2 5 [(B "generic_type" 14 35 48 2 2 [(B "type_identifier" 15 35 39 2 2 []); (B "type_arguments" 16 39 48 2 2 [(A "<" 17 39 40 2 2 []); (B "type_identifier" 18 40 47 2 2 []); (A ">" 19 47 48 2 2 [])])] # "type"); (B "variable_declarator" 20 49 111 2 5 [(B "identifier" 21 49 53 2 2 [] # "name"); (B "assignment_operator" 22 54 55 2 2 [(A "=" 23 54 55 2 2 [])]); (B "query_expression" 24 66 111 3 5 [(A "[" 25 66 67 3 3 []); (B "soql_query_body" 26 67 98 3 3 [(B "select_clause" 27 67 84 3 3 [(A "SELECT" 28 67 73 3 3 []); (B "field_identifier" 29 74 76 3 3 [(B "identifier" 30 74 76 3 3 [])]); (A "," 31 76 77 3 3 []); (B "field_identifier" 32 80 84 3 3 [(B "identifier" 33 80 84 3 3 [])])] # "select_clause"); (B "from_clause" 34 86 98 3 3 [(A "FROM" 35 86 90 3 3 []); (B "storage_identifier" 36 91 98 3 3 [(B "identifier" 37 91 98 3 3 [])])] # "from_clause")]); (A "]" 38 110 111 5 5 [])] # "value")] # "declarator"); (A ";" 39 113 114 5 5 [])]); (A "}" 40 120 121 6 6 [])]); (A "}" 41 122 123 7 7 [])] # "body")])]).
Example prettier80_soql10 : as_expected prettier80_soql10_source prettier80_soql10_tree (U "public class Me {
  {
    List<Account> accs = [SELECT Id, Name FROM Account];
  }
}
").
Proof. apply run_test_ok. vm_compute. reflexivity. Qed.

(* tests/prettier80/soql11.in *)
Definition prettier80_soql11_source : ustr := U "public class Me {
     {
          for (  Account 
          a    :    [SELECT Id FROM Account  ]
          )   {


               System.debug(a);


          }
     }
}
".
Definition prettier80_soql11_tree : span := (B "parser_output" 1 0 171 0 13 [(B "class_declaration" 2 0 170 0 12 [(B "modifiers" 3 0 6 0 0 [(B "modifier" 4 0 6 0 0 [(B "public" 5 0 6 0 0 [(A "public" 6 0 6 0 0 [])])])]); (A "class" 7 7 12 0 0 []); (B "identifier" 8 13 15 0 0 [] # "name"); (B "class_body" 9 16 170 0 12 [(A "{" 10 16 17 0 0 []); (B "block" 11 23 168 1 11 [(A "{" 12 23 24 1 1 []); (B "enhanced_for_statement" 13 35 161 2 10 [(A "for" 14 35 38 2 2 []); (A "(" 15 39 40 2 2 []); (B "type_identifier" 16 42 49 2 2 [] # "type"); (B "identifier" 17 61 62 3 3 [] # "name"); (A ":" 18 66 67 3 3 []); (B "query_expression" 19 71 97 3 3 [(A "[" 20 71 72 3 3 []); (B "soql_query_body" 21 72 94 3 3 [(B "select_clause" 22 72 81 3 3 [(A "SELECT" 23 72 78 3 3 []); (B "field_identifier" 24 79 81 3 3 [(B "identifier" 25 79 81 3 3 [])])] # "select_clause"); (B "from_clause" 26 82 94 3 3 [(A "FROM" 27 82 86 3 3 []); (B "storage_identifier" 28 87 94 3 3 [(B "identifier" 29 87 94 3 3 [])])] # "from_clause")]); (A "]" 30 96 97 3 3 [])] # "value"); (A ")" 31 108 109 4 4 []); (B "block" 32 112 161 4 10 [(A "{" 33 112 113 4 4 []); (B "expression_statement" 34 131 147 7 7 [(B "method_invocation" 35 131 146 7 7 [(B "identifier" 36 131 137 7 7 [] # "object"); (A "." 37 137 138 7 7 []); (B "identifier" 38 138 143 7 7 [] # "name"); (B "argument_list" 39 143 146 7 7 [(A "(" 40 143 144 7 7 []); (B "identifier" 41 144 145 7 7 []); (A ")" 42 145 146 7 7 [])] # "arguments")]); (A ";" 43 146 147 7 7 [])]); (A "}" 44 160 161 10 10 [])] # "body")]); (A "}" 45 167 168 11 11 [])]); (A "}" 46 169 170 12 12 [])] # "body")])]).
Example prettier80_soql11 : as_expected prettier80_soql11_source prettier80_soql11_tree (U "public class Me {
  {
    for (Account a : [SELECT Id FROM Account]) {
      System.debug(a);
    }
  }
}
").
Proof. apply run_test_ok. vm_compute. reflexivity. Qed.

(* tests/prettier80/soql12.in *)
Definition prettier80_soql12_source : ustr := U "class T {
  {
    [SELECT Id FROM Account ORDER BY Name DESC NULLS LAST, Phone ASC, Id NULLS LAST, Owner.Name DESC];
  }
}
".
Definition prettier80_soql12_tree : span := (B "parser_output" 1 0 123 0 5 [(B "class_declaration" 2 0 122 0 4 [(A "class" 3 0 5 0 0 []); (B "identifier" 4 6 7 0 0 [] # "name"); (B "class_body" 5 8 122 0 4 [(A "{" 6 8 9 0 0 []); (B "block" 7 12 120 1 3 [(A "{" 8 12 13 1 1 []); (B "expression_statement" 9 18 116 2 2 [(B "query_expression" 10 18 115 2 2 [(A "[" 11 18 19 2 2 []); (B "soql_query_body" 12 19 114 2 2 [(B "select_clause" 13 19 28 2 2 [(A "SELECT" 14 19 25 2 2 []); (B "field_identifier" 15 26 28 2 2 [(B "identifier" 16 26 28 2 2 [])])] # "select_clause"); (B "from_clause" 17 29 41 2 2 [(A "FROM" 18 29 33 2 2 []); (B "storage_identifier" 19 34 41 2 2 [(B "identifier" 20 34 41 2 2 [])])] # "from_clause"); (B "order_by_clause" 21 42 114 2 2 [(A "ORDER" 22 42 47 2 2 []); (A "BY" 23 48 50 2 2 []); (B "order_expression" 24 51 71 2 2 [(B "field_identifier" 25 51 55 2 2 [(B "identifier" 26 51 55 2 2 [])]); (B "order_direction" 27 56 60 2 2 [(A "DESC" 28 56 60 2 2 [])]); (B "order_null_direction" 29 61 71 2 2 [(A "NULLS" 30 61 66 2 2 []); (A "LAST" 31 67 71 2 2 [])])]); (A "," 32 71 72 2 2 []); (B "order_expression" 33 73 82 2 2 [(B "field_identifier" 34 73 78 2 2 [(B "identifier" 35 73 78 2 2 [])]); (B "order_direction" 36 79 82 2 2 [(A "ASC" 37 79 82 2 2 [])])]); (A "," 38 82 83 2 2 []); (B "order_expression" 39 84 97 2 2 [(B "field_identifier" 40 84 86 2 2 [(B "identifier" 41 84 86 2 2 [])]); (B "order_null_direction" 42 87 97 2 2 [(A "NULLS" 43 87 92 2 2 []); (A "LAST" 44 93 97 2 2 [])])]); (A "," 45 97 98 2 2 []); (B "order_expression" 46 99 114 2 2 [(B "field_identifier" 47 99 109 2 2 [(B "dotted_identifier" 48 99 109 2 2 [(B "identifier" 49 99 104 2 2 []); (A "." 50 104 105 2 2 []); (B "identifier" 51 105 109 2 2 [])])]); (B "order_direction" 52 110 114 2 2 [(A "DESC" 53 110 114 2 2 [])])])] # "order_by_clause")]); (A "]" 54 114 115 2 2 [])]); (A ";" 55 115 116 2 2 [])]); (A "}" 56 119 120 3 3 [])]); (A "}" 57 121 122 4 4 [])] # "body")])]).
Example prettier80_soql12 : as_expected prettier80_soql12_source prettier80_soql12_tree (U "class T {
  {
    [
      SELECT Id
      FROM Account
      ORDER BY Name DESC NULLS LAST, Phone ASC, Id NULLS LAST, Owner.Name DESC
    ];
  }
}
").
Proof. apply run_test_ok. vm_compute. reflexivity. Qed.

(* tests/prettier80/soql12_group_by.in *)
Definition prettier80_soql12_group_by_source : ustr := U "class T {
  {
    [SELECT Id FROM Account GROUP BY Id];
    [SELECT Id FROM Account GROUP BY Id, Name];
    [SELECT Id FROM Account GROUP BY Id, Name HAVING COUNT(Id) > 2];
  }
}
".
Definition prettier80_soql12_group_by_tree : span := (B "parser_output" 1 0 179 0 7 [(B "class_declaration" 2 0 178 0 6 [(A "class" 3 0 5 0 0 []); (B "identifier" 4 6 7 0 0 [] # "name"); (B "class_body" 5 8 178 0 6 [(A "{" 6 8 9 0 0 []); (B "block" 7 12 176 1 5 [(A "{" 8 12 13 1 1 []); (B "expression_statement" 9 18 55 2 2 [(B "query_expression" 10 18 54 2 2 [(A "[" 11 18 19 2 2 []); (B "soql_query_body" 12 19 53 2 2 [(B "select_clause" 13 19 28 2 2 [(A "SELECT" 14 19 25 2 2 []); (B "field_identifier" 15 26 28 2 2 [(B "identifier" 16 26 28 2 2 [])])] # "select_clause"); (B "from_clause" 17 29 41 2 2 [(A "FROM" 18 29 33 2 2 []); (B "storage_identifier" 19 34 41 2 2 [(B "identifier" 20 34 41 2 2 [])])] # "from_clause"); (B "group_by_clause" 21 42 53 2 2 [(A "GROUP" 22 42 47 2 2 []); (A "BY" 23 48 50 2 2 []); (B "field_identifier" 24 51 53 2 2 [(B "identifier" 25 51 53 2 2 [])])] # "group_by_clause")]); (A "]" 26 53 54 2 2 [])]); (A ";" 27 54 55 2 2 [])]); (B "expression_statement" 28 60 103 3 3 [(B "query_expression" 29 60 102 3 3 [(A "[" 30 60 61 3 3 []); (B "soql_query_body" 31 61 101 3 3 [(B "select_clause" 32 61 70 3 3 [(A "SELECT" 33 61 67 3 3 []); (B "field_identifier" 34 68 70 3 3 [(B "identifier" 35 68 70 3 3 [])])] # "select_clause"); (B "from_clause" 36 71 83 3 3 [(A "FROM" 37 71 75 3 3 []); (B "storage_identifier" 38 76 83 3 3 [(B "identifier" 39 76 83 3 3 [])])] # "from_clause"); (B "group_by_clause" 40 84 101 3 3 [(A "GROUP" 41 84 89 3 3 []); (A "BY" 42 90 92 3 3 []); (B "field_identifier" 43 93 95 3 3 [(B "identifier" 44 93 95 3 3 [])]); (A "," 45 95 96 3 3 []); (B "field_identifier" 46 97 101 3 3 [(B "identifier" 47 97 101 3 3 [])])] # "group_by_clause")]); (A "]" 48 101 102 3 3 [])]); (A ";" 49 102 103 3 3 [])]); (B "expression_statement" 50 108 172 4 4 [(B "query_expression" 51 108 171 4 4 [(A "[" 52 108 109 4 4 []); (B "soql_query_body" 53 109 170 4 4 [(B "select_clause" 54 109 118 4 4 [(A "SELECT" 55 109 115 4 4 []); (B "field_identifier" 56 116 118 4 4 [(B "identifier" 57 116 118 4 4 [])])] # "select_clause"); (B "from_clause" 58 119 131 4 4 [(A "FROM" 59 119 123 4 4 []); (B "storage_identifier" 60 124 131 4 4 [(B "identifier" 61 124 131 4 4 [])])] # "from_clause"); (B "group_by_clause" 62 132 170 4 4 [(A "GROUP" 63 132 137 4 4 []); (A "BY" 64 138 140 4 4 []); (B "field_identifier" 65 141 143 4 4 [(B "identifier" 66 141 143 4 4 [])]); (A "," 67 143 144 4 4 []); (B "field_identifier" 68 145 149 4 4 [(B "identifier" 69 145 149 4 4 [])]); (B "having_clause" 70 150 170 4 4 [(A "HAVING" 71 150 156 4 4 []); (B "comparison_expression" 72 157 170 4 4 [(B "function_expression" 73 157 166 4 4 [(B "identifier" 74 157 162 4 4 [] # "function_name"); (A "(" 75 162 163 4 4 []); (B "field_identifier" 76 163 165 4 4 [(B "identifier" 77 163 165 4 4 [])]); (A ")" 78 165 166 4 4 [])]); (B "value_comparison_operator" 79 167 168 4 4 [(A ">" 80 167 168 4 4 [])]); (B "int" 81 169 170 4 4 [])])])] # "group_by_clause")]); (A "]" 82 170 171 4 4 [])]); (A ";" 83 171 172 4 4 [])]); (A "}" 84 175 176 5 5 [])]); (A "}" 85 177 178 6 6 [])] # "body")])]).
Example prettier80_soql12_group_by : as_expected prettier80_soql12_group_by_source prettier80_soql12_group_by_tree (U "class T {
  {
    [SELECT Id FROM Account GROUP BY Id];
    [SELECT Id FROM Account GROUP BY Id, Name];
    [SELECT Id FROM Account GROUP BY Id, Name HAVING COUNT(Id) > 2];
  }
}
").
Proof. apply run_test_ok. vm_compute. reflexivity. Qed.

(* tests/prettier80/soql13.in *)
Definition prettier80_soql13_source : ustr := U "class UTIL_SortContact_TEST {
  {
                    [
            SELECT OpportunityId 
            FROM OpportunityContactRole 
            GROUP BY OpportunityId 
            HAVING COUNT(Id) > 1
        ];
}
}
".
Definition prettier80_soql13_tree : span := (B "parser_output" 1 0 215 0 10 [(B "class_declaration" 2 0 214 0 9 [(A "class" 3 0 5 0 0 []); (B "identifier" 4 6 27 0 0 [] # "name"); (B "class_body" 5 28 214 0 9 [(A "{" 6 28 29 0 0 []); (B "block" 7 32 212 1 8 [(A "{" 8 32 33 1 1 []); (B "expression_statement" 9 54 210 2 7 [(B "query_expression" 10 54 209 2 7 [(A "[" 11 54 55 2 2 []); (B "soql_query_body" 12 68 199 3 6 [(B "select_clause" 13 68 88 3 3 [(A "SELECT" 14 68 74 3 3 []); (B "field_identifier" 15 75 88 3 3 [(B "identifier" 16 75 88 3 3 [])])] # "select_clause"); (B "from_clause" 17 102 129 4 4 [(A "FROM" 18 102 106 4 4 []); (B "storage_identifier" 19 107 129 4 4 [(B "identifier" 20 107 129 4 4 [])])] # "from_clause"); (B "group_by_clause" 21 143 199 5 6 [(A "GROUP" 22 143 148 5 5 []); (A "BY" 23 149 151 5 5 []); (B "field_identifier" 24 152 165 5 5 [(B "identifier" 25 152 165 5 5 [])]); (B "having_clause" 26 179 199 6 6 [(A "HAVING" 27 179 185 6 6 []); (B "comparison_expression" 28 186 199 6 6 [(B "function_expression" 29 186 195 6 6 [(B "identifier" 30 186 191 6 6 [] # "function_name"); (A "(" 31 191 192 6 6 []); (B "field_identifier" 32 192 194 6 6 [(B "identifier" 33 192 194 6 6 [])]); (A ")" 34 194 195 6 6 [])]); (B "value_comparison_operator" 35 196 197 6 6 [(A ">" 36 196 197 6 6 [])]); (B "int" 37 198 199 6 6 [])])])] # "group_by_clause")]); (A "]" 38 208 209 7 7 [])]); (A ";" 39 209 210 7 7 [])]); (A "}" 40 211 212 8 8 [])]); (A "}" 41 213 214 9 9 [])] # "body")])]).
Example prettier80_soql13 : as_expected prettier80_soql13_source prettier80_soql13_tree (U "class UTIL_SortContact_TEST {
  {
    [
      SELECT OpportunityId
      FROM OpportunityContactRole
      GROUP BY OpportunityId
      HAVING COUNT(Id) > 1
    ];
  }
}
").
Proof. apply run_test_ok. vm_compute. reflexivity. Qed.

(* tests/prettier80/soql15.in *)
Definition prettier80_soql15_source : ustr := U "class UTIL_SortContact_TEST {
  {
    [SELECT Name
            FROM ApexClass 
            WHERE Name LIKE :addrLikeClause 
            AND (NOT Name LIKE :testLikeClause) 
            AND (NOT Name IN :validatorExclussions)];
  }
}
".
Definition prettier80_soql15_tree : span := (B "parser_output" 1 0 233 0 9 [(B "class_declaration" 2 0 232 0 8 [(A "class" 3 0 5 0 0 []); (B "identifier" 4 6 27 0 0 [] # "name"); (B "class_body" 5 28 232 0 8 [(A "{" 6 28 29 0 0 []); (B "block" 7 32 230 1 7 [(A "{" 8 32 33 1 1 []); (B "expression_statement" 9 38 226 2 6 [(B "query_expression" 10 38 225 2 6 [(A "[" 11 38 39 2 2 []); (B "soql_query_body" 12 39 224 2 6 [(B "select_clause" 13 39 50 2 2 [(A "SELECT" 14 39 45 2 2 []); (B "field_identifier" 15 46 50 2 2 [(B "identifier" 16 46 50 2 2 [])])] # "select_clause"); (B "from_clause" 17 63 77 3 3 [(A "FROM" 18 63 67 3 3 []); (B "storage_identifier" 19 68 77 3 3 [(B "identifier" 20 68 77 3 3 [])])] # "from_clause"); (B "where_clause" 21 91 224 4 6 [(A "WHERE" 22 91 96 4 4 []); (B "and_expression" 23 97 224 4 6 [(B "comparison_expression" 24 97 122 4 4 [(B "field_identifier" 25 97 101 4 4 [(B "identifier" 26 97 101 4 4 [])]); (B "value_comparison_operator" 27 102 106 4 4 [(A "LIKE" 28 102 106 4 4 [])]); (B "bound_apex_expression" 29 107 122 4 4 [(A ":" 30 107 108 4 4 []); (B "identifier" 31 108 122 4 4 [])])]); (A "AND" 32 136 139 5 5 []); (A "(" 33 140 141 5 5 []); (B "not_expression" 34 141 170 5 5 [(A "NOT" 35 141 144 5 5 []); (B "comparison_expression" 36 145 170 5 5 [(B "field_identifier" 37 145 149 5 5 [(B "identifier" 38 145 149 5 5 [])]); (B "value_comparison_operator" 39 150 154 5 5 [(A "LIKE" 40 150 154 5 5 [])]); (B "bound_apex_expression" 41 155 170 5 5 [(A ":" 42 155 156 5 5 []); (B "identifier" 43 156 170 5 5 [])])])]); (A ")" 44 170 171 5 5 []); (A "AND" 45 185 188 6 6 []); (A "(" 46 189 190 6 6 []); (B "not_expression" 47 190 223 6 6 [(A "NOT" 48 190 193 6 6 []); (B "comparison_expression" 49 194 223 6 6 [(B "field_identifier" 50 194 198 6 6 [(B "identifier" 51 194 198 6 6 [])]); (B "set_comparison_operator" 52 199 201 6 6 [(A "IN" 53 199 201 6 6 [])]); (B "bound_apex_expression" 54 202 223 6 6 [(A ":" 55 202 203 6 6 []); (B "identifier" 56 203 223 6 6 [])])])]); (A ")" 57 223 224 6 6 [])])] # "where_clause")]); (A "]" 58 224 225 6 6 [])]); (A ";" 59 225 226 6 6 [])]); (A "}" 60 229 230 7 7 [])]); (A "}" 61 231 232 8 8 [])] # "body")])]).
Example prettier80_soql15 : as_expected prettier80_soql15_source prettier80_soql15_tree (U "class UTIL_SortContact_TEST {
  {
    [
      SELECT Name
      FROM ApexClass
      WHERE
        Name LIKE :addrLikeClause
        AND (NOT Name LIKE :testLikeClause)
        AND (NOT Name IN :validatorExclussions)
    ];
  }
}
").
Proof. apply run_test_ok. vm_compute. reflexivity. Qed.

(* tests/prettier80/soql16.in *)
Definition prettier80_soql16_source : ustr := U "class UTIL_SortContact_TEST {
  {
        list<AggregateResult> queryAggResult 
= [SELECT count_distinct(Id), General_Accounting_Unit__r.Name FROM Allocation__c WHERE Opportunity__r.Name LIKE 'opp%' GROUP BY General_Accounting_Unit__r.Name ORDER BY count_distinct(Id)];
}
}
".
Definition prettier80_soql16_tree : span := (B "parser_output" 1 0 274 0 6 [(B "class_declaration" 2 0 273 0 5 [(A "class" 3 0 5 0 0 []); (B "identifier" 4 6 27 0 0 [] # "name"); (B "class_body" 5 28 273 0 5 [(A "{" 6 28 29 0 0 []); (B "block" 7 32 271 1 4 [(A "{" 8 32 33 1 1 []); (B "local_variable_declaration" 9 42 269 2 3 [(B "generic_type" 10 42 63 2 2 [(B "type_identifier" 11 42 46 2 2 []); (B "type_arguments" 12 46 63 2 2 [(A "<" 13 46 47 2 2 []); (B "type_identifier" 14 47 62 2 2 []); (A ">" 15 62 63 2 2 [])])] # "type"); (B "variable_declarator" 16 64 268 2 3 [(B "identifier" 17 64 78 2 2 [] # "name"); (B "assignment_operator" 18 80 81 3 3 [(A "=" 19 80 81 3 3 [])]); (B "query_expression" 20 82 268 3 3 [(A "[" 21 82 83 3 3 []); (B "soql_query_body" 22 83 267 3 3 [(B "select_clause" 23 83 141 3 3 [(A "SELECT" 24 83 89 3 3 []); (B "function_expression" 25 90 108 3 3 [(B "identifier" 26 90 104 3 3 [] # "function_name"); (A "(" 27 104 105 3 3 []); (B "field_identifier" 28 105 107 3 3 [(B "identifier" 29 105 107 3 3 [])]); (A ")" 30 107 108 3 3 [])]); (A "," 31 108 109 3 3 []); (B "field_identifier" 32 110 141 3 3 [(B "dotted_identifier" 33 110 141 3 3 [(B "identifier" 34 110 136 3 3 []); (A "." 35 136 137 3 3 []); (B "identifier" 36 137 141 3 3 [])])])] # "select_clause"); (B "from_clause" 37 142 160 3 3 [(A "FROM" 38 142 146 3 3 []); (B "storage_identifier" 39 147 160 3 3 [(B "identifier" 40 147 160 3 3 [])])] # "from_clause"); (B "where_clause" 41 161 198 3 3 [(A "WHERE" 42 161 166 3 3 []); (B "comparison_expression" 43 167 198 3 3 [(B "field_identifier" 44 167 186 3 3 [(B "dotted_identifier" 45 167 186 3 3 [(B "identifier" 46 167 181 3 3 []); (A "." 47 181 182 3 3 []); (B "identifier" 48 182 186 3 3 [])])]); (B "value_comparison_operator" 49 187 191 3 3 [(A "LIKE" 50 187 191 3 3 [])]); (B "string_literal" 51 192 198 3 3 [])])] # "where_clause"); (B "group_by_clause" 52 199 239 3 3 [(A "GROUP" 53 199 204 3 3 []); (A "BY" 54 205 207 3 3 []); (B "field_identifier" 55 208 239 3 3 [(B "dotted_identifier" 56 208 239 3 3 [(B "identifier" 57 208 234 3 3 []); (A "." 58 234 235 3 3 []); (B "identifier" 59 235 239 3 3 [])])])] # "group_by_clause"); (B "order_by_clause" 60 240 267 3 3 [(A "ORDER" 61 240 245 3 3 []); (A "BY" 62 246 248 3 3 []); (B "order_expression" 63 249 267 3 3 [(B "function_expression" 64 249 267 3 3 [(B "identifier" 65 249 263 3 3 [] # "function_name"); (A "(" 66 263 264 3 3 []); (B "field_identifier" 67 264 266 3 3 [(B "identifier" 68 264 266 3 3 [])]); (A ")" 69 266 267 3 3 [])])])] # "order_by_clause")]); (A "]" 70 267 268 3 3 [])] # "value")] # "declarator"); (A ";" 71 268 269 3 3 [])]); (A "}" 72 270 271 4 4 [])]); (A "}" 73 272 273 5 5 [])] # "body")])]).
Example prettier80_soql16 : as_expected prettier80_soql16_source prettier80_soql16_tree (U "class UTIL_SortContact_TEST {
  {
    list<AggregateResult> queryAggResult = [
      SELECT count_distinct(Id), General_Accounting_Unit__r.Name
      FROM Allocation__c
      WHERE Opportunity__r.Name LIKE 'opp%'
      GROUP BY General_Accounting_Unit__r.Name
      ORDER BY count_distinct(Id)
    ];
  }
}
").
Proof. apply run_test_ok. vm_compute. reflexivity. Qed.

(* tests/prettier80/soql18.in *)
Definition prettier80_soql18_source : ustr := U "class UTIL_SortContact_TEST {
  {
    List<AutoNumber__c> autoNumbers = [
      SELECT Starting_Number__c
      FROM AutoNumber__c
      WHERE IsActive__c = TRUE
      LIMIT 1
      FOR UPDATE
    ];
  }
}
".
Definition prettier80_soql18_tree : span := (B "parser_output" 1 0 206 0 11 [(B "class_declaration" 2 0 205 0 10 [(A "class" 3 0 5 0 0 []); (B "identifier" 4 6 27 0 0 [] # "name"); (B "class_body" 5 28 205 0 10 [(A "{" 6 28 29 0 0 []); (B "block" 7 32 203 1 9 [(A "{" 8 32 33 1 1 []); (B "local_variable_declaration" 9 38 199 2 8 [(B "generic_type" 10 38 57 2 2 [(B "type_identifier" 11 38 42 2 2 []); (B "type_arguments" 12 42 57 2 2 [(A "<" 13 42 43 2 2 []); (B "type_identifier" 14 43 56 2 2 []); (A ">" 15 56 57 2 2 [])])] # "type"); (B "variable_declarator" 16 58 198 2 8 [(B "identifier" 17 58 69 2 2 [] # "name"); (B "assignment_operator" 18 70 71 2 2 [(A "=" 19 70 71 2 2 [])]); (B "query_expression" 20 72 198 2 8 [(A "[" 21 72 73 2 2 []); (B "soql_query_body" 22 80 192 3 7 [(B "select_clause" 23 80 105 3 3 [(A "SELECT" 24 80 86 3 3 []); (B "field_identifier" 25 87 105 3 3 [(B "identifier" 26 87 105 3 3 [])])] # "select_clause"); (B "from_clause" 27 112 130 4 4 [(A "FROM" 28 112 116 4 4 []); (B "storage_identifier" 29 117 130 4 4 [(B "identifier" 30 117 130 4 4 [])])] # "from_clause"); (B "where_clause" 31 137 161 5 5 [(A "WHERE" 32 137 142 5 5 []); (B "comparison_expression" 33 143 161 5 5 [(B "field_identifier" 34 143 154 5 5 [(B "identifier" 35 143 154 5 5 [])]); (B "value_comparison_operator" 36 155 156 5 5 [(A "=" 37 155 156 5 5 [])]); (B "boolean" 38 157 161 5 5 [(A "TRUE" 39 157 161 5 5 [])])])] # "where_clause"); (B "limit_clause" 40 168 175 6 6 [(A "LIMIT" 41 168 173 6 6 []); (B "int" 42 174 175 6 6 [])] # "limit_clause"); (B "for_clause" 43 182 192 7 7 [(A "FOR" 44 182 185 7 7 []); (B "for_type" 45 186 192 7 7 [(A "UPDATE" 46 186 192 7 7 [])])])]); (A "]" 47 197 198 8 8 [])] # "value")] # "declarator"); (A ";" 48 198 199 8 8 [])]); (A "}" 49 202 203 9 9 [])]); (A "}" 50 204 205 10 10 [])] # "body")])]).
Example prettier80_soql18 : as_expected prettier80_soql18_source prettier80_soql18_tree (U "class UTIL_SortContact_TEST {
  {
    List<AutoNumber__c> autoNumbers = [
      SELECT Starting_Number__c
      FROM AutoNumber__c
      WHERE IsActive__c = TRUE
      LIMIT 1
      FOR UPDATE
    ];
  }
}
").
Proof. apply run_test_ok. vm_compute. reflexivity. Qed.

(* tests/prettier80/soql19.in *)
Definition prettier80_soql19_source : ustr := U "class A {
  {
    [SELECT MAX(Amount) ConvertedAmount, Id FROM Opportunity GROUP BY Id];

    [SELECT MAX(Amount) CAmount, Max(A) CA, Id FROM Opportunity GROUP BY Id];

    [SELECT ID, (SELECT Id, Name, Address FROM RollupOrderBys__r) FROM Account];

    [SELECT c.Id, c.Name FROM Contact as c];

    [SELECT FIELDS(STANDARD) FROM Organization LIMIT 1];
  }
}
".
Definition prettier80_soql19_tree : span := (B "parser_output" 1 0 360 0 13 [(B "class_declaration" 2 0 359 0 12 [(A "class" 3 0 5 0 0 []); (B "identifier" 4 6 7 0 0 [] # "name"); (B "class_body" 5 8 359 0 12 [(A "{" 6 8 9 0 0 []); (B "block" 7 12 357 1 11 [(A "{" 8 12 13 1 1 []); (B "expression_statement" 9 18 88 2 2 [(B "query_expression" 10 18 87 2 2 [(A "[" 11 18 19 2 2 []); (B "soql_query_body" 12 19 86 2 2 [(B "select_clause" 13 19 57 2 2 [(A "SELECT" 14 19 25 2 2 []); (B "alias_expression" 15 26 53 2 2 [(B "function_expression" 16 26 37 2 2 [(B "identifier" 17 26 29 2 2 [] # "function_name"); (A "(" 18 29 30 2 2 []); (B "field_identifier" 19 30 36 2 2 [(B "identifier" 20 30 36 2 2 [])]); (A ")" 21 36 37 2 2 [])]); (B "identifier" 22 38 53 2 2 [])]); (A "," 23 53 54 2 2 []); (B "field_identifier" 24 55 57 2 2 [(B "identifier" 25 55 57 2 2 [])])] # "select_clause"); (B "from_clause" 26 58 74 2 2 [(A "FROM" 27 58 62 2 2 []); (B "storage_identifier" 28 63 74 2 2 [(B "identifier" 29 63 74 2 2 [])])] # "from_clause"); (B "group_by_clause" 30 75 86 2 2 [(A "GROUP" 31 75 80 2 2 []); (A "BY" 32 81 83 2 2 []); (B "field_identifier" 33 84 86 2 2 [(B "identifier" 34 84 86 2 2 [])])] # "group_by_clause")]); (A "]" 35 86 87 2 2 [])]); (A ";" 36 87 88 2 2 [])]); (B "expression_statement" 37 94 167 4 4 [(B "query_expression" 38 94 166 4 4 [(A "[" 39 94 95 4 4 []); (B "soql_query_body" 40 95 165 4 4 [(B "select_clause" 41 95 136 4 4 [(A "SELECT" 42 95 101 4 4 []); (B "alias_expression" 43 102 121 4 4 [(B "function_expression" 44 102 113 4 4 [(B "identifier" 45 102 105 4 4 [] # "function_name"); (A "(" 46 105 106 4 4 []); (B "field_identifier" 47 106 112 4 4 [(B "identifier" 48 106 112 4 4 [])]); (A ")" 49 112 113 4 4 [])]); (B "identifier" 50 114 121 4 4 [])]); (A "," 51 121 122 4 4 []); (B "alias_expression" 52 123 132 4 4 [(B "function_expression" 53 123 129 4 4 [(B "identifier" 54 123 126 4 4 [] # "function_name"); (A "(" 55 126 127 4 4 []); (B "field_identifier" 56 127 128 4 4 [(B "identifier" 57 127 128 4 4 [])]); (A ")" 58 128 129 4 4 [])]); (B "identifier" 59 130 132 4 4 [])]); (A "," 60 132 133 4 4 []); (B "field_identifier" 61 134 136 4 4 [(B "identifier" 62 134 136 4 4 [])])] # "select_clause"); (B "from_clause" 63 137 153 4 4 [(A "FROM" 64 137 141 4 4 []); (B "storage_identifier" 65 142 153 4 4 [(B "identifier" 66 142 153 4 4 [])])] # "from_clause"); (B "group_by_clause" 67 154 165 4 4 [(A "GROUP" 68 154 159 4 4 []); (A "BY" 69 160 162 4 4 []); (B "field_identifier" 70 163 165 4 4 [(B "identifier" 71 163 165 4 4 [])])] # "group_by_clause")]); (A "]" 72 165 166 4 4 [])]); (A ";" 73 166 167 4 4 [])]); (B "expression_statement" 74 173 249 6 6 [(B "query_expression" 75 173 248 6 6 [(A "[" 76 173 174 6 6 []); (B "soql_query_body" 77 174 247 6 6 [(B "select_clause" 78 174 234 6 6 [(A "SELECT" 79 174 180 6 6 []); (B "field_identifier" 80 181 183 6 6 [(B "identifier" 81 181 183 6 6 [])]); (A "," 82 183 184 6 6 []); (B "subquery" 83 185 234 6 6 [(A "(" 84 185 186 6 6 []); (B "soql_query_body" 85 186 233 6 6 [(B "select_clause" 86 186 210 6 6 [(A "SELECT" 87 186 192 6 6 []); (B "field_identifier" 88 193 195 6 6 [(B "identifier" 89 193 195 6 6 [])]); (A "," 90 195 196 6 6 []); (B "field_identifier" 91 197 201 6 6 [(B "identifier" 92 197 201 6 6 [])]); (A "," 93 201 202 6 6 []); (B "field_identifier" 94 203 210 6 6 [(B "identifier" 95 203 210 6 6 [])])] # "select_clause"); (B "from_clause" 96 211 233 6 6 [(A "FROM" 97 211 215 6 6 []); (B "storage_identifier" 98 216 233 6 6 [(B "identifier" 99 216 233 6 6 [])])] # "from_clause")]); (A ")" 100 233 234 6 6 [])])] # "select_clause"); (B "from_clause" 101 235 247 6 6 [(A "FROM" 102 235 239 6 6 []); (B "storage_identifier" 103 240 247 6 6 [(B "identifier" 104 240 247 6 6 [])])] # "from_clause")]); (A "]" 105 247 248 6 6 [])]); (A ";" 106 248 249 6 6 [])]); (B "expression_statement" 107 255 295 8 8 [(B "query_expression" 108 255 294 8 8 [(A "[" 109 255 256 8 8 []); (B "soql_query_body" 110 256 293 8 8 [(B "select_clause" 111 256 275 8 8 [(A "SELECT" 112 256 262 8 8 []); (B "field_identifier" 113 263 267 8 8 [(B "dotted_identifier" 114 263 267 8 8 [(B "identifier" 115 263 264 8 8 []); (A "." 116 264 265 8 8 []); (B "identifier" 117 265 267 8 8 [])])]); (A "," 118 267 268 8 8 []); (B "field_identifier" 119 269 275 8 8 [(B "dotted_identifier" 120 269 275 8 8 [(B "identifier" 121 269 270 8 8 []); (A "." 122 270 271 8 8 []); (B "identifier" 123 271 275 8 8 [])])])] # "select_clause"); (B "from_clause" 124 276 293 8 8 [(A "FROM" 125 276 280 8 8 []); (B "storage_alias" 126 281 293 8 8 [(B "storage_identifier" 127 281 288 8 8 [(B "identifier" 128 281 288 8 8 [])]); (A "AS" 129 289 291 8 8 []); (B "identifier" 130 292 293 8 8 [])])] # "from_clause")]); (A "]" 131 293 294 8 8 [])]); (A ";" 132 294 295 8 8 [])]); (B "expression_statement" 133 301 353 10 10 [(B "query_expression" 134 301 352 10 10 [(A "[" 135 301 302 10 10 []); (B "soql_query_body" 136 302 351 10 10 [(B "select_clause" 137 302 325 10 10 [(A "SELECT" 138 302 308 10 10 []); (B "fields_expression" 139 309 325 10 10 [(A "FIELDS" 140 309 315 10 10 []); (A "(" 141 315 316 10 10 []); (B "fields_type" 142 316 324 10 10 [(A "STANDARD" 143 316 324 10 10 [])]); (A ")" 144 324 325 10 10 [])])] # "select_clause"); (B "from_clause" 145 326 343 10 10 [(A "FROM" 146 326 330 10 10 []); (B "storage_identifier" 147 331 343 10 10 [(B "identifier" 148 331 343 10 10 [])])] # "from_clause"); (B "limit_clause" 149 344 351 10 10 [(A "LIMIT" 150 344 349 10 10 []); (B "int" 151 350 351 10 10 [])] # "limit_clause")]); (A "]" 152 351 352 10 10 [])]); (A ";" 153 352 353 10 10 [])]); (A "}" 154 356 357 11 11 [])]); (A "}" 155 358 359 12 12 [])] # "body")])]).
Example prettier80_soql19 : as_expected prettier80_soql19_source prettier80_soql19_tree (U "class A {
  {
    [SELECT MAX(Amount) ConvertedAmount, Id FROM Opportunity GROUP BY Id];

    [SELECT MAX(Amount) CAmount, Max(A) CA, Id FROM Opportunity GROUP BY Id];

    [SELECT ID, (SELECT Id, Name, Address FROM RollupOrderBys__r) FROM Account];

    [SELECT c.Id, c.Name FROM Contact c];

    [SELECT FIELDS(STANDARD) FROM Organization LIMIT 1];
  }
}
").
Proof. apply run_test_ok. vm_compute. reflexivity. Qed.

(* tests/prettier80/soql2.in *)
Definition prettier80_soql2_source : ustr := U "public class Me {
  {
    [
        SELECT Body__c


  FROM Banner__c WHERE


        Language__c = :langCode

                AND Visible__c =   TRUE
    AND Channel__c INCLUDES (:channel)
                AND   Market__c   INCLUDES   (  :marketCode  )
    ORDER BY  Order__c
      ];
  }
}
".
Definition prettier80_soql2_tree : span := (B "parser_output" 1 0 291 0 18 [(B "class_declaration" 2 0 290 0 17 [(B "modifiers" 3 0 6 0 0 [(B "modifier" 4 0 6 0 0 [(B "public" 5 0 6 0 0 [(A "public" 6 0 6 0 0 [])])])]); (A "class" 7 7 12 0 0 []); (B "identifier" 8 13 15 0 0 [] # "name"); (B "class_body" 9 16 290 0 17 [(A "{" 10 16 17 0 0 []); (B "block" 11 20 288 1 16 [(A "{" 12 20 21 1 1 []); (B "expression_statement" 13 26 284 2 15 [(B "query_expression" 14 26 283 2 15 [(A "[" 15 26 27 2 2 []); (B "soql_query_body" 16 36 275 3 14 [(B "select_clause" 17 36 50 3 3 [(A "SELECT" 18 36 42 3 3 []); (B "field_identifier" 19 43 50 3 3 [(B "identifier" 20 43 50 3 3 [])])] # "select_clause"); (B "from_clause" 21 55 69 6 6 [(A "FROM" 22 55 59 6 6 []); (B "storage_identifier" 23 60 69 6 6 [(B "identifier" 24 60 69 6 6 [])])] # "from_clause"); (B "where_clause" 25 70 252 6 13 [(A "WHERE" 26 70 75 6 6 []); (B "and_expression" 27 86 252 9 13 [(B "comparison_expression" 28 86 109 9 9 [(B "field_identifier" 29 86 97 9 9 [(B "identifier" 30 86 97 9 9 [])]); (B "value_comparison_operator" 31 98 99 9 9 [(A "=" 32 98 99 9 9 [])]); (B "bound_apex_expression" 33 100 109 9 9 [(A ":" 34 100 101 9 9 []); (B "identifier" 35 101 109 9 9 [])])]); (A "AND" 36 127 130 11 11 []); (B "comparison_expression" 37 131 150 11 11 [(B "field_identifier" 38 131 141 11 11 [(B "identifier" 39 131 141 11 11 [])]); (B "value_comparison_operator" 40 142 143 11 11 [(A "=" 41 142 143 11 11 [])]); (B "boolean" 42 146 150 11 11 [(A "TRUE" 43 146 150 11 11 [])])]); (A "AND" 44 155 158 12 12 []); (B "comparison_expression" 45 159 189 12 12 [(B "field_identifier" 46 159 169 12 12 [(B "identifier" 47 159 169 12 12 [])]); (B "set_comparison_operator" 48 170 178 12 12 [(A "INCLUDES" 49 170 178 12 12 [])]); (B "comparable_list" 50 179 189 12 12 [(A "(" 51 179 180 12 12 []); (B "bound_apex_expression" 52 180 188 12 12 [(A ":" 53 180 181 12 12 []); (B "identifier" 54 181 188 12 12 [])]); (A ")" 55 188 189 12 12 [])])]); (A "AND" 56 206 209 13 13 []); (B "comparison_expression" 57 212 252 13 13 [(B "field_identifier" 58 212 221 13 13 [(B "identifier" 59 212 221 13 13 [])]); (B "set_comparison_operator" 60 224 232 13 13 [(A "INCLUDES" 61 224 232 13 13 [])]); (B "comparable_list" 62 235 252 13 13 [(A "(" 63 235 236 13 13 []); (B "bound_apex_expression" 64 238 249 13 13 [(A ":" 65 238 239 13 13 []); (B "identifier" 66 239 249 13 13 [])]); (A ")" 67 251 252 13 13 [])])])])] # "where_clause"); (B "order_by_clause" 68 257 275 14 14 [(A "ORDER" 69 257 262 14 14 []); (A "BY" 70 263 265 14 14 []); (B "order_expression" 71 267 275 14 14 [(B "field_identifier" 72 267 275 14 14 [(B "identifier" 73 267 275 14 14 [])])])] # "order_by_clause")]); (A "]" 74 282 283 15 15 [])]); (A ";" 75 283 284 15 15 [])]); (A "}" 76 287 288 16 16 [])]); (A "}" 77 289 290 17 17 [])] # "body")])]).
Example prettier80_soql2 : as_expected prettier80_soql2_source prettier80_soql2_tree (U "public class Me {
  {
    [
      SELECT Body__c
      FROM Banner__c
      WHERE
        Language__c = :langCode
        AND Visible__c = TRUE
        AND Channel__c INCLUDES (:channel)
        AND Market__c INCLUDES (:marketCode)
      ORDER BY Order__c
    ];
  }
}
").
Proof. apply run_test_ok. vm_compute. reflexivity. Qed.

(* tests/prettier80/soql3.in *)
Definition prettier80_soql3_source : ustr := U "@isTest
private class UTIL_SortContact_TEST {
  @isTest
  private static void sortContactsLastFirstName() {
    List<Schema.ApexTrigger> expectedResults = [
        SELECT
    Name
          FROM  ApexTrigger
      WHERE  Name  IN  :targetApexTriggerNames
    ORDER BY  NamespacePrefix  NULLS LAST
    ];
  }
}
".
Definition prettier80_soql3_tree : span := (B "parser_output" 1 0 311 0 13 [(B "class_declaration" 2 0 310 0 12 [(B "modifiers" 3 0 15 0 1 [(B "annotation" 4 0 7 0 0 [(A "@" 5 0 1 0 0 []); (B "identifier" 6 1 7 0 0 [] # "name")]); (B "modifier" 7 8 15 1 1 [(B "private" 8 8 15 1 1 [(A "private" 9 8 15 1 1 [])])])]); (A "class" 10 16 21 1 1 []); (B "identifier" 11 22 43 1 1 [] # "name"); (B "class_body" 12 44 310 1 12 [(A "{" 13 44 45 1 1 []); (B "method_declaration" 14 48 308 2 11 [(B "modifiers" 15 48 72 2 3 [(B "annotation" 16 48 55 2 2 [(A "@" 17 48 49 2 2 []); (B "identifier" 18 49 55 2 2 [] # "name")]); (B "modifier" 19 58 65 3 3 [(B "private" 20 58 65 3 3 [(A "private" 21 58 65 3 3 [])])]); (B "modifier" 22 66 72 3 3 [(B "static" 23 66 72 3 3 [(A "static" 24 66 72 3 3 [])])])]); (B "void_type" 25 73 77 3 3 [] # "type"); (B "identifier" 26 78 103 3 3 [] # "name"); (B "formal_parameters" 27 103 105 3 3 [(A "(" 28 103 104 3 3 []); (A ")" 29 104 105 3 3 [])] # "parameters"); (B "block" 30 106 308 3 11 [(A "{" 31 106 107 3 3 []); (B "local_variable_declaration" 32 112 304 4 10 [(B "generic_type" 33 112 136 4 4 [(B "type_identifier" 34 112 116 4 4 []); (B "type_arguments" 35 116 136 4 4 [(A "<" 36 116 117 4 4 []); (B "scoped_type_identifier" 37 117 135 4 4 [(B "type_identifier" 38 117 123 4 4 []); (A "." 39 123 124 4 4 []); (B "type_identifier" 40 124 135 4 4 [])]); (A ">" 41 135 136 4 4 [])])] # "type"); (B "variable_declarator" 42 137 303 4 10 [(B "identifier" 43 137 152 4 4 [] # "name"); (B "assignment_operator" 44 153 154 4 4 [(A "=" 45 153 154 4 4 [])]); (B "query_expression" 46 155 303 4 10 [(A "[" 47 155 156 4 4 []); (B "soql_query_body" 48 165 297 5 9 [(B "select_clause" 49 165 180 5 6 [(A "SELECT" 50 165 171 5 5 []); (B "field_identifier" 51 176 180 6 6 [(B "identifier" 52 176 180 6 6 [])])] # "select_clause"); (B "from_clause" 53 191 208 7 7 [(A "FROM" 54 191 195 7 7 []); (B "storage_identifier" 55 197 208 7 7 [(B "identifier" 56 197 208 7 7 [])])] # "from_clause"); (B "where_clause" 57 215 255 8 8 [(A "WHERE" 58 215 220 8 8 []); (B "comparison_expression" 59 222 255 8 8 [(B "field_identifier" 60 222 226 8 8 [(B "identifier" 61 222 226 8 8 [])]); (B "set_comparison_operator" 62 228 230 8 8 [(A "IN" 63 228 230 8 8 [])]); (B "bound_apex_expression" 64 232 255 8 8 [(A ":" 65 232 233 8 8 []); (B "identifier" 66 233 255 8 8 [])])])] # "where_clause"); (B "order_by_clause" 67 260 297 9 9 [(A "ORDER" 68 260 265 9 9 []); (A "BY" 69 266 268 9 9 []); (B "order_expression" 70 270 297 9 9 [(B "field_identifier" 71 270 285 9 9 [(B "identifier" 72 270 285 9 9 [])]); (B "order_null_direction" 73 287 297 9 9 [(A "NULLS" 74 287 292 9 9 []); (A "LAST" 75 293 297 9 9 [])])])] # "order_by_clause")]); (A "]" 76 302 303 10 10 [])] # "value")] # "declarator"); (A ";" 77 303 304 10 10 [])]); (A "}" 78 307 308 11 11 [])] # "body")]); (A "}" 79 309 310 12 12 [])] # "body")])]).
Example prettier80_soql3 : as_expected prettier80_soql3_source prettier80_soql3_tree (U "@isTest
private class UTIL_SortContact_TEST {
  @isTest
  private static void sortContactsLastFirstName() {
    List<Schema.ApexTrigger> expectedResults = [
      SELECT Name
      FROM ApexTrigger
      WHERE Name IN :targetApexTriggerNames
      ORDER BY NamespacePrefix NULLS LAST
    ];
  }
}
").
Proof. apply run_test_ok. vm_compute. reflexivity. Qed.

(* tests/prettier80/soql4.in *)
Definition prettier80_soql4_source : ustr := U "class UTIL_SortContact_TEST {
  {
    [
      
      SELECT
        Id
      FROM AuthSession
      WHERE UsersId IN :userIds AND IsCurrent = TRUE
      ORDER BY ParentId NULLS FIRST
    ];
  }
}

".
Definition prettier80_soql4_tree : span := (B "parser_output" 1 0 197 0 13 [(B "class_declaration" 2 0 195 0 11 [(A "class" 3 0 5 0 0 []); (B "identifier" 4 6 27 0 0 [] # "name"); (B "class_body" 5 28 195 0 11 [(A "{" 6 28 29 0 0 []); (B "block" 7 32 193 1 10 [(A "{" 8 32 33 1 1 []); (B "expression_statement" 9 38 189 2 9 [(B "query_expression" 10 38 188 2 9 [(A "[" 11 38 39 2 2 []); (B "soql_query_body" 12 53 182 4 8 [(B "select_clause" 13 53 70 4 5 [(A "SELECT" 14 53 59 4 4 []); (B "field_identifier" 15 68 70 5 5 [(B "identifier" 16 68 70 5 5 [])])] # "select_clause"); (B "from_clause" 17 77 93 6 6 [(A "FROM" 18 77 81 6 6 []); (B "storage_identifier" 19 82 93 6 6 [(B "identifier" 20 82 93 6 6 [])])] # "from_clause"); (B "where_clause" 21 100 146 7 7 [(A "WHERE" 22 100 105 7 7 []); (B "and_expression" 23 106 146 7 7 [(B "comparison_expression" 24 106 125 7 7 [(B "field_identifier" 25 106 113 7 7 [(B "identifier" 26 106 113 7 7 [])]); (B "set_comparison_operator" 27 114 116 7 7 [(A "IN" 28 114 116 7 7 [])]); (B "bound_apex_expression" 29 117 125 7 7 [(A ":" 30 117 118 7 7 []); (B "identifier" 31 118 125 7 7 [])])]); (A "AND" 32 126 129 7 7 []); (B "comparison_expression" 33 130 146 7 7 [(B "field_identifier" 34 130 139 7 7 [(B "identifier" 35 130 139 7 7 [])]); (B "value_comparison_operator" 36 140 141 7 7 [(A "=" 37 140 141 7 7 [])]); (B "boolean" 38 142 146 7 7 [(A "TRUE" 39 142 146 7 7 [])])])])] # "where_clause"); (B "order_by_clause" 40 153 182 8 8 [(A "ORDER" 41 153 158 8 8 []); (A "BY" 42 159 161 8 8 []); (B "order_expression" 43 162 182 8 8 [(B "field_identifier" 44 162 170 8 8 [(B "identifier" 45 162 170 8 8 [])]); (B "order_null_direction" 46 171 182 8 8 [(A "NULLS" 47 171 176 8 8 []); (A "FIRST" 48 177 182 8 8 [])])])] # "order_by_clause")]); (A "]" 49 187 188 9 9 [])]); (A ";" 50 188 189 9 9 [])]); (A "}" 51 192 193 10 10 [])]); (A "}" 52 194 195 11 11 [])] # "body")])]).
Example prettier80_soql4 : as_expected prettier80_soql4_source prettier80_soql4_tree (U "class UTIL_SortContact_TEST {
  {
    [
      SELECT Id
      FROM AuthSession
      WHERE UsersId IN :userIds AND IsCurrent = TRUE
      ORDER BY ParentId NULLS FIRST
    ];
  }
}
").
Proof. apply run_test_ok. vm_compute. reflexivity. Qed.

(* tests/prettier80/soql5.in *)
Definition prettier80_soql5_source : ustr := U "class UTIL_SortContact_TEST {
  {
[
            SELECT Id FROM npe03__Recurring_Donation__c
                WHERE CALENDAR_YEAR(npe03__Date_Established__c) = :filterYear
                AND CALENDAR_MONTH(npe03__Date_Established__c) >= :startMonth
                AND CALENDAR_MONTH(npe03__Date_Established__c) <= :endMonth
        ];
}
}
".
Definition prettier80_soql5_tree : span := (B "parser_output" 1 0 339 0 10 [(B "class_declaration" 2 0 338 0 9 [(A "class" 3 0 5 0 0 []); (B "identifier" 4 6 27 0 0 [] # "name"); (B "class_body" 5 28 338 0 9 [(A "{" 6 28 29 0 0 []); (B "block" 7 32 336 1 8 [(A "{" 8 32 33 1 1 []); (B "expression_statement" 9 34 334 2 7 [(B "query_expression" 10 34 333 2 7 [(A "[" 11 34 35 2 2 []); (B "soql_query_body" 12 48 323 3 6 [(B "select_clause" 13 48 57 3 3 [(A "SELECT" 14 48 54 3 3 []); (B "field_identifier" 15 55 57 3 3 [(B "identifier" 16 55 57 3 3 [])])] # "select_clause"); (B "from_clause" 17 58 91 3 3 [(A "FROM" 18 58 62 3 3 []); (B "storage_identifier" 19 63 91 3 3 [(B "identifier" 20 63 91 3 3 [])])] # "from_clause"); (B "where_clause" 21 108 323 4 6 [(A "WHERE" 22 108 113 4 4 []); (B "and_expression" 23 114 323 4 6 [(B "comparison_expression" 24 114 169 4 4 [(B "function_expression" 25 114 155 4 4 [(B "identifier" 26 114 127 4 4 [] # "function_name"); (A "(" 27 127 128 4 4 []); (B "field_identifier" 28 128 154 4 4 [(B "identifier" 29 128 154 4 4 [])]); (A ")" 30 154 155 4 4 [])]); (B "value_comparison_operator" 31 156 157 4 4 [(A "=" 32 156 157 4 4 [])]); (B "bound_apex_expression" 33 158 169 4 4 [(A ":" 34 158 159 4 4 []); (B "identifier" 35 159 169 4 4 [])])]); (A "AND" 36 186 189 5 5 []); (B "comparison_expression" 37 190 247 5 5 [(B "function_expression" 38 190 232 5 5 [(B "identifier" 39 190 204 5 5 [] # "function_name"); (A "(" 40 204 205 5 5 []); (B "field_identifier" 41 205 231 5 5 [(B "identifier" 42 205 231 5 5 [])]); (A ")" 43 231 232 5 5 [])]); (B "value_comparison_operator" 44 233 235 5 5 [(A ">=" 45 233 235 5 5 [])]); (B "bound_apex_expression" 46 236 247 5 5 [(A ":" 47 236 237 5 5 []); (B "identifier" 48 237 247 5 5 [])])]); (A "AND" 49 264 267 6 6 []); (B "comparison_expression" 50 268 323 6 6 [(B "function_expression" 51 268 310 6 6 [(B "identifier" 52 268 282 6 6 [] # "function_name"); (A "(" 53 282 283 6 6 []); (B "field_identifier" 54 283 309 6 6 [(B "identifier" 55 283 309 6 6 [])]); (A ")" 56 309 310 6 6 [])]); (B "value_comparison_operator" 57 311 313 6 6 [(A "<=" 58 311 313 6 6 [])]); (B "bound_apex_expression" 59 314 323 6 6 [(A ":" 60 314 315 6 6 []); (B "identifier" 61 315 323 6 6 [])])])])] # "where_clause")]); (A "]" 62 332 333 7 7 [])]); (A ";" 63 333 334 7 7 [])]); (A "}" 64 335 336 8 8 [])]); (A "}" 65 337 338 9 9 [])] # "body")])]).
Example prettier80_soql5 : as_expected prettier80_soql5_source prettier80_soql5_tree (U "class UTIL_SortContact_TEST {
  {
    [
      SELECT Id
      FROM npe03__Recurring_Donation__c
      WHERE
        CALENDAR_YEAR(npe03__Date_Established__c) = :filterYear
        AND CALENDAR_MONTH(npe03__Date_Established__c) >= :startMonth
        AND CALENDAR_MONTH(npe03__Date_Established__c) <= :endMonth
    ];
  }
}
").
Proof. apply run_test_ok. vm_compute. reflexivity. Qed.

(* tests/prettier80/soql6.in *)
Definition prettier80_soql6_source : ustr := U "public class Me {
     {
          Integer i = 1 ;
          List<Account> accs   = 
             [ SELECT Id FROM Account LIMIT    :i 

          ];
     }
}
".
Definition prettier80_soql6_tree : span := (B "parser_output" 1 0 159 0 9 [(B "class_declaration" 2 0 158 0 8 [(B "modifiers" 3 0 6 0 0 [(B "modifier" 4 0 6 0 0 [(B "public" 5 0 6 0 0 [(A "public" 6 0 6 0 0 [])])])]); (A "class" 7 7 12 0 0 []); (B "identifier" 8 13 15 0 0 [] # "name"); (B "class_body" 9 16 158 0 8 [(A "{" 10 16 17 0 0 []); (B "block" 11 23 156 1 7 [(A "{" 12 23 24 1 1 []); (B "local_variable_declaration" 13 35 50 2 2 [(B "type_identifier" 14 35 42 2 2 [] # "type"); (B "variable_declarator" 15 43 48 2 2 [(B "identifier" 16 43 44 2 2 [] # "name"); (B "assignment_operator" 17 45 46 2 2 [(A "=" 18 45 46 2 2 [])]); (B "int" 19 47 48 2 2 [] # "value")] # "declarator"); (A ";" 20 49 50 2 2 [])]); (B "local_variable_declaration" 21 61 149 3 6 [(B "generic_type" 22 61 74 3 3 [(B "type_identifier" 23 61 65 3 3 []); (B "type_arguments" 24 65 74 3 3 [(A "<" 25 65 66 3 3 []); (B "type_identifier" 26 66 73 3 3 []); (A ">" 27 73 74 3 3 [])])] # "type"); (B "variable_declarator" 28 75 148 3 6 [(B "identifier" 29 75 79 3 3 [] # "name"); (B "assignment_operator" 30 82 83 3 3 [(A "=" 31 82 83 3 3 [])]); (B "query_expression" 32 98 148 4 6 [(A "[" 33 98 99 4 4 []); (B "soql_query_body" 34 100 134 4 4 [(B "select_clause" 35 100 109 4 4 [(A "SELECT" 36 100 106 4 4 []); (B "field_identifier" 37 107 109 4 4 [(B "identifier" 38 107 109 4 4 [])])] # "select_clause"); (B "from_clause" 39 110 122 4 4 [(A "FROM" 40 110 114 4 4 []); (B "storage_identifier" 41 115 122 4 4 [(B "identifier" 42 115 122 4 4 [])])] # "from_clause"); (B "limit_clause" 43 123 134 4 4 [(A "LIMIT" 44 123 128 4 4 []); (B "bound_apex_expression" 45 132 134 4 4 [(A ":" 46 132 133 4 4 []); (B "identifier" 47 133 134 4 4 [])])] # "limit_clause")]); (A "]" 48 147 148 6 6 [])] # "value")] # "declarator"); (A ";" 49 148 149 6 6 [])]); (A "}" 50 155 156 7 7 [])]); (A "}" 51 157 158 8 8 [])] # "body")])]).
Example prettier80_soql6 : as_expected prettier80_soql6_source prettier80_soql6_tree (U "public class Me {
  {
    Integer i = 1;
    List<Account> accs = [SELECT Id FROM Account LIMIT :i];
  }
}
").
Proof. apply run_test_ok. vm_compute. reflexivity. Qed.

(* tests/prettier80/soql7.in *)
Definition prettier80_soql7_source : ustr := U "class TestClass {
  {
    List<SObject> records = [SELECT Id FROM Account WHERE Name = 'test12345678'];
  }
}
".
Definition prettier80_soql7_tree : span := (B "parser_output" 1 0 110 0 5 [(B "class_declaration" 2 0 109 0 4 [(A "class" 3 0 5 0 0 []); (B "identifier" 4 6 15 0 0 [] # "name"); (B "class_body" 5 16 109 0 4 [(A "{" 6 16 17 0 0 []); (B "block" 7 20 107 1 3 [(A "{" 8 20 21 1 1 []); (B "local_variable_declaration" 9 26 103 2 2 [(B "generic_type" 10 26 39 2 2 [(B "type_identifier" 11 26 30 2 2 []); (B "type_arguments" 12 30 39 2 2 [(A "<" 13 30 31 2 2 []); (B "type_identifier" 14 31 38 2 2 []); (A ">" 15 38 39 2 2 [])])] # "type"); (B "variable_declarator" 16 40 102 2 2 [(B "identifier" 17 40 47 2 2 [] # "name"); (B "assignment_operator" 18 48 49 2 2 [(A "=" 19 48 49 2 2 [])]); (B "query_expression" 20 50 102 2 2 [(A "[" 21 50 51 2 2 []); (B "soql_query_body" 22 51 101 2 2 [(B "select_clause" 23 51 60 2 2 [(A "SELECT" 24 51 57 2 2 []); (B "field_identifier" 25 58 60 2 2 [(B "identifier" 26 58 60 2 2 [])])] # "select_clause"); (B "from_clause" 27 61 73 2 2 [(A "FROM" 28 61 65 2 2 []); (B "storage_identifier" 29 66 73 2 2 [(B "identifier" 30 66 73 2 2 [])])] # "from_clause"); (B "where_clause" 31 74 101 2 2 [(A "WHERE" 32 74 79 2 2 []); (B "comparison_expression" 33 80 101 2 2 [(B "field_identifier" 34 80 84 2 2 [(B "identifier" 35 80 84 2 2 [])]); (B "value_comparison_operator" 36 85 86 2 2 [(A "=" 37 85 86 2 2 [])]); (B "string_literal" 38 87 101 2 2 [])])] # "where_clause")]); (A "]" 39 101 102 2 2 [])] # "value")] # "declarator"); (A ";" 40 102 103 2 2 [])]); (A "}" 41 106 107 3 3 [])]); (A "}" 42 108 109 4 4 [])] # "body")])]).
Example prettier80_soql7 : as_expected prettier80_soql7_source prettier80_soql7_tree (U "class TestClass {
  {
    List<SObject> records = [
      SELECT Id
      FROM Account
      WHERE Name = 'test12345678'
    ];
  }
}
").
Proof. apply run_test_ok. vm_compute. reflexivity. Qed.

(* tests/prettier80/soql8.in *)
Definition prettier80_soql8_source : ustr := U "public class Me {
  {
    Integer i = 1;
    Integer cnt = [ 
    SELECT COUNT()    FROM  Contact    ALL ROWS    ]
    ;
  }
}
".
Definition prettier80_soql8_tree : span := (B "parser_output" 1 0 127 0 8 [(B "class_declaration" 2 0 126 0 7 [(B "modifiers" 3 0 6 0 0 [(B "modifier" 4 0 6 0 0 [(B "public" 5 0 6 0 0 [(A "public" 6 0 6 0 0 [])])])]); (A "class" 7 7 12 0 0 []); (B "identifier" 8 13 15 0 0 [] # "name"); (B "class_body" 9 16 126 0 7 [(A "{" 10 16 17 0 0 []); (B "block" 11 20 124 1 6 [(A "{" 12 20 21 1 1 []); (B "local_variable_declaration" 13 26 40 2 2 [(B "type_identifier" 14 26 33 2 2 [] # "type"); (B "variable_declarator" 15 34 39 2 2 [(B "identifier" 16 34 35 2 2 [] # "name"); (B "assignment_operator" 17 36 37 2 2 [(A "=" 18 36 37 2 2 [])]); (B "int" 19 38 39 2 2 [] # "value")] # "declarator"); (A ";" 20 39 40 2 2 [])]); (B "local_variable_declaration" 21 45 120 3 5 [(B "type_identifier" 22 45 52 3 3 [] # "type"); (B "variable_declarator" 23 53 114 3 4 [(B "identifier" 24 53 56 3 3 [] # "name"); (B "assignment_operator" 25 57 58 3 3 [(A "=" 26 57 58 3 3 [])]); (B "query_expression" 27 59 114 3 4 [(A "[" 28 59 60 3 3 []); (B "soql_query_body" 29 66 109 4 4 [(B "select_clause" 30 66 80 4 4 [(A "SELECT" 31 66 72 4 4 []); (B "count_expression" 32 73 80 4 4 [(B "identifier" 33 73 78 4 4 [] # "function_name"); (A "(" 34 78 79 4 4 []); (A ")" 35 79 80 4 4 [])])] # "select_clause"); (B "from_clause" 36 84 97 4 4 [(A "FROM" 37 84 88 4 4 []); (B "storage_identifier" 38 90 97 4 4 [(B "identifier" 39 90 97 4 4 [])])] # "from_clause"); (B "all_rows_clause" 40 101 109 4 4 [(A "ALL" 41 101 104 4 4 []); (A "ROWS" 42 105 109 4 4 [])] # "all_rows_clause")]); (A "]" 43 113 114 4 4 [])] # "value")] # "declarator"); (A ";" 44 119 120 5 5 [])]); (A "}" 45 123 124 6 6 [])]); (A "}" 46 125 126 7 7 [])] # "body")])]).
Example prettier80_soql8 : as_expected prettier80_soql8_source prettier80_soql8_tree (U "public class Me {
  {
    Integer i = 1;
    Integer cnt = [SELECT COUNT() FROM Contact ALL ROWS];
  }
}
").
Proof. apply run_test_ok. vm_compute. reflexivity. Qed.

(* tests/prettier80/soql9.in *)
Definition prettier80_soql9_source : ustr := U "class UTIL_SortContact_TEST {
  {
[
                SELECT Id
                                    FROM Opportunity
                                    WHERE 
                                    CloseDate < 2020-08-01

                                    ORDER BY AccountId
        ];

}
}
".
Definition prettier80_soql9_tree : span := (B "parser_output" 1 0 289 0 13 [(B "class_declaration" 2 0 288 0 12 [(A "class" 3 0 5 0 0 []); (B "identifier" 4 6 27 0 0 [] # "name"); (B "class_body" 5 28 288 0 12 [(A "{" 6 28 29 0 0 []); (B "block" 7 32 286 1 11 [(A "{" 8 32 33 1 1 []); (B "expression_statement" 9 34 283 2 9 [(B "query_expression" 10 34 282 2 9 [(A "[" 11 34 35 2 2 []); (B "soql_query_body" 12 52 272 3 8 [(B "select_clause" 13 52 61 3 3 [(A "SELECT" 14 52 58 3 3 []); (B "field_identifier" 15 59 61 3 3 [(B "identifier" 16 59 61 3 3 [])])] # "select_clause"); (B "from_clause" 17 98 114 4 4 [(A "FROM" 18 98 102 4 4 []); (B "storage_identifier" 19 103 114 4 4 [(B "identifier" 20 103 114 4 4 [])])] # "from_clause"); (B "where_clause" 21 151 216 5 6 [(A "WHERE" 22 151 156 5 5 []); (B "comparison_expression" 23 194 216 6 6 [(B "field_identifier" 24 194 203 6 6 [(B "identifier" 25 194 203 6 6 [])]); (B "value_comparison_operator" 26 204 205 6 6 [(A "<" 27 204 205 6 6 [])]); (B "date" 28 206 216 6 6 [])])] # "where_clause"); (B "order_by_clause" 29 254 272 8 8 [(A "ORDER" 30 254 259 8 8 []); (A "BY" 31 260 262 8 8 []); (B "order_expression" 32 263 272 8 8 [(B "field_identifier" 33 263 272 8 8 [(B "identifier" 34 263 272 8 8 [])])])] # "order_by_clause")]); (A "]" 35 281 282 9 9 [])]); (A ";" 36 282 283 9 9 [])]); (A "}" 37 285 286 11 11 [])]); (A "}" 38 287 288 12 12 [])] # "body")])]).
Example prettier80_soql9 : as_expected prettier80_soql9_source prettier80_soql9_tree (U "class UTIL_SortContact_TEST {
  {
    [
      SELECT Id
      FROM Opportunity
      WHERE CloseDate < 2020-08-01
      ORDER BY AccountId
    ];
  }
}
").
Proof. apply run_test_ok. vm_compute. reflexivity. Qed.

(* tests/prettier80/soql_bracket_handling.in *)
Definition prettier80_soql_bracket_handling_source : ustr := U "class SoqlHaving2 {
  {
    [SELECT COUNT(Id)
      FROM Lead
      GROUP BY LeadSource
      HAVING (COUNT(Name) > 100 AND LeadSource LIKE 'San%') OR (LeadSource = 'San%' AND LeadSource IN ('Val1', 'Val2'))];
  }
}
".
Definition prettier80_soql_bracket_handling_tree : span := (B "parser_output" 1 0 216 0 8 [(B "class_declaration" 2 0 215 0 7 [(A "class" 3 0 5 0 0 []); (B "identifier" 4 6 17 0 0 [] # "name"); (B "class_body" 5 18 215 0 7 [(A "{" 6 18 19 0 0 []); (B "block" 7 22 213 1 6 [(A "{" 8 22 23 1 1 []); (B "expression_statement" 9 28 209 2 5 [(B "query_expression" 10 28 208 2 5 [(A "[" 11 28 29 2 2 []); (B "soql_query_body" 12 29 207 2 5 [(B "select_clause" 13 29 45 2 2 [(A "SELECT" 14 29 35 2 2 []); (B "function_expression" 15 36 45 2 2 [(B "identifier" 16 36 41 2 2 [] # "function_name"); (A "(" 17 41 42 2 2 []); (B "field_identifier" 18 42 44 2 2 [(B "identifier" 19 42 44 2 2 [])]); (A ")" 20 44 45 2 2 [])])] # "select_clause"); (B "from_clause" 21 52 61 3 3 [(A "FROM" 22 52 56 3 3 []); (B "storage_identifier" 23 57 61 3 3 [(B "identifier" 24 57 61 3 3 [])])] # "from_clause"); (B "group_by_clause" 25 68 207 4 5 [(A "GROUP" 26 68 73 4 4 []); (A "BY" 27 74 76 4 4 []); (B "field_identifier" 28 77 87 4 4 [(B "identifier" 29 77 87 4 4 [])]); (B "having_clause" 30 94 207 5 5 [(A "HAVING" 31 94 100 5 5 []); (B "or_expression" 32 101 207 5 5 [(A "(" 33 101 102 5 5 []); (B "and_expression" 34 102 146 5 5 [(B "comparison_expression" 35 102 119 5 5 [(B "function_expression" 36 102 113 5 5 [(B "identifier" 37 102 107 5 5 [] # "function_name"); (A "(" 38 107 108 5 5 []); (B "field_identifier" 39 108 112 5 5 [(B "identifier" 40 108 112 5 5 [])]); (A ")" 41 112 113 5 5 [])]); (B "value_comparison_operator" 42 114 115 5 5 [(A ">" 43 114 115 5 5 [])]); (B "int" 44 116 119 5 5 [])]); (A "AND" 45 120 123 5 5 []); (B "comparison_expression" 46 124 146 5 5 [(B "field_identifier" 47 124 134 5 5 [(B "identifier" 48 124 134 5 5 [])]); (B "value_comparison_operator" 49 135 139 5 5 [(A "LIKE" 50 135 139 5 5 [])]); (B "string_literal" 51 140 146 5 5 [])])]); (A ")" 52 146 147 5 5 []); (A "OR" 53 148 150 5 5 []); (A "(" 54 151 152 5 5 []); (B "and_expression" 55 152 206 5 5 [(B "comparison_expression" 56 152 171 5 5 [(B "field_identifier" 57 152 162 5 5 [(B "identifier" 58 152 162 5 5 [])]); (B "value_comparison_operator" 59 163 164 5 5 [(A "=" 60 163 164 5 5 [])]); (B "string_literal" 61 165 171 5 5 [])]); (A "AND" 62 172 175 5 5 []); (B "comparison_expression" 63 176 206 5 5 [(B "field_identifier" 64 176 186 5 5 [(B "identifier" 65 176 186 5 5 [])]); (B "set_comparison_operator" 66 187 189 5 5 [(A "IN" 67 187 189 5 5 [])]); (B "comparable_list" 68 190 206 5 5 [(A "(" 69 190 191 5 5 []); (B "string_literal" 70 191 197 5 5 []); (A "," 71 197 198 5 5 []); (B "string_literal" 72 199 205 5 5 []); (A ")" 73 205 206 5 5 [])])])]); (A ")" 74 206 207 5 5 [])])])] # "group_by_clause")]); (A "]" 75 207 208 5 5 [])]); (A ";" 76 208 209 5 5 [])]); (A "}" 77 212 213 6 6 [])]); (A "}" 78 214 215 7 7 [])] # "body")])]).
Example prettier80_soql_bracket_handling : as_expected prettier80_soql_bracket_handling_source prettier80_soql_bracket_handling_tree (U "class SoqlHaving2 {
  {
    [
      SELECT COUNT(Id)
      FROM Lead
      GROUP BY LeadSource
      HAVING
        (COUNT(Name) > 100
        AND LeadSource LIKE 'San%')
        OR (LeadSource = 'San%'
        AND LeadSource IN ('Val1', 'Val2'))
    ];
  }
}
").
Proof. apply run_test_ok. vm_compute. reflexivity. Qed.

(* tests/prettier80/soql_having1.in *)
Definition prettier80_soql_having1_source : ustr := U "class SoqlHaving {
  {
    [
      SELECT count(Id)
      FROM Lead
      GROUP BY LeadSource
      HAVING COUNT(Name) > 100 AND LeadSource LIKE 'San%'
    ];

  }
}
".
Definition prettier80_soql_having1_tree : span := (B "parser_output" 1 0 166 0 11 [(B "class_declaration" 2 0 165 0 10 [(A "class" 3 0 5 0 0 []); (B "identifier" 4 6 16 0 0 [] # "name"); (B "class_body" 5 17 165 0 10 [(A "{" 6 17 18 0 0 []); (B "block" 7 21 163 1 9 [(A "{" 8 21 22 1 1 []); (B "expression_statement" 9 27 158 2 7 [(B "query_expression" 10 27 157 2 7 [(A "[" 11 27 28 2 2 []); (B "soql_query_body" 12 35 151 3 6 [(B "select_clause" 13 35 51 3 3 [(A "SELECT" 14 35 41 3 3 []); (B "function_expression" 15 42 51 3 3 [(B "identifier" 16 42 47 3 3 [] # "function_name"); (A "(" 17 47 48 3 3 []); (B "field_identifier" 18 48 50 3 3 [(B "identifier" 19 48 50 3 3 [])]); (A ")" 20 50 51 3 3 [])])] # "select_clause"); (B "from_clause" 21 58 67 4 4 [(A "FROM" 22 58 62 4 4 []); (B "storage_identifier" 23 63 67 4 4 [(B "identifier" 24 63 67 4 4 [])])] # "from_clause"); (B "group_by_clause" 25 74 151 5 6 [(A "GROUP" 26 74 79 5 5 []); (A "BY" 27 80 82 5 5 []); (B "field_identifier" 28 83 93 5 5 [(B "identifier" 29 83 93 5 5 [])]); (B "having_clause" 30 100 151 6 6 [(A "HAVING" 31 100 106 6 6 []); (B "and_expression" 32 107 151 6 6 [(B "comparison_expression" 33 107 124 6 6 [(B "function_expression" 34 107 118 6 6 [(B "identifier" 35 107 112 6 6 [] # "function_name"); (A "(" 36 112 113 6 6 []); (B "field_identifier" 37 113 117 6 6 [(B "identifier" 38 113 117 6 6 [])]); (A ")" 39 117 118 6 6 [])]); (B "value_comparison_operator" 40 119 120 6 6 [(A ">" 41 119 120 6 6 [])]); (B "int" 42 121 124 6 6 [])]); (A "AND" 43 125 128 6 6 []); (B "comparison_expression" 44 129 151 6 6 [(B "field_identifier" 45 129 139 6 6 [(B "identifier" 46 129 139 6 6 [])]); (B "value_comparison_operator" 47 140 144 6 6 [(A "LIKE" 48 140 144 6 6 [])]); (B "string_literal" 49 145 151 6 6 [])])])])] # "group_by_clause")]); (A "]" 50 156 157 7 7 [])]); (A ";" 51 157 158 7 7 [])]); (A "}" 52 162 163 9 9 [])]); (A "}" 53 164 165 10 10 [])] # "body")])]).
Example prettier80_soql_having1 : as_expected prettier80_soql_having1_source prettier80_soql_having1_tree (U "class SoqlHaving {
  {
    [
      SELECT count(Id)
      FROM Lead
      GROUP BY LeadSource
      HAVING COUNT(Name) > 100 AND LeadSource LIKE 'San%'
    ];
  }
}
").
Proof. apply run_test_ok. vm_compute. reflexivity. Qed.

(* tests/prettier80/soql_remove_bracket.in *)
Definition prettier80_soql_remove_bracket_source : ustr := U "public class A {
  {
    String s = [
      SELECT AccountId
      FROM Contact
      WHERE
        AccountId IN :accountIdsToUpdate
        AND (Deceased__c != TRUE
        AND Exclude_from_Household_Name__c != TRUE)
    ];

    String s2 = [
      SELECT AccountId
      FROM Contact
      WHERE
        AccountId IN :accountIdsToUpdate
        OR (Deceased__c != TRUE
        OR Exclude_from_Household_Name__c != TRUE)
    ];

    String s2 = [
      SELECT AccountId
      FROM Contact
      WHERE
        AccountId IN :accountIdsToUpdate
        OR (Deceased__c != TRUE
        AND Exclude_from_Household_Name__c != TRUE)
    ];

    String s3 = [
      SELECT AccountId
      FROM Contact
      WHERE
        AccountId IN :accountIdsToUpdate
        AND (Deceased__c != TRUE
        OR Exclude_from_Household_Name__c != TRUE)
        AND AccountId != NULL
    ];
  }
}
".
Definition prettier80_soql_remove_bracket_tree : span := (B "parser_output" 1 0 875 0 40 [(B "class_declaration" 2 0 874 0 39 [(B "modifiers" 3 0 6 0 0 [(B "modifier" 4 0 6 0 0 [(B "public" 5 0 6 0 0 [(A "public" 6 0 6 0 0 [])])])]); (A "class" 7 7 12 0 0 []); (B "identifier" 8 13 14 0 0 [] # "name"); (B "class_body" 9 15 874 0 39 [(A "{" 10 15 16 0 0 []); (B "block" 11 19 872 1 38 [(A "{" 12 19 20 1 1 []); (B "local_variable_declaration" 13 25 224 2 9 [(B "type_identifier" 14 25 31 2 2 [] # "type"); (B "variable_declarator" 15 32 223 2 9 [(B "identifier" 16 32 33 2 2 [] # "name"); (B "assignment_operator" 17 34 35 2 2 [(A "=" 18 34 35 2 2 [])]); (B "query_expression" 19 36 223 2 9 [(A "[" 20 36 37 2 2 []); (B "soql_query_body" 21 44 217 3 8 [(B "select_clause" 22 44 60 3 3 [(A "SELECT" 23 44 50 3 3 []); (B "field_identifier" 24 51 60 3 3 [(B "identifier" 25 51 60 3 3 [])])] # "select_clause"); (B "from_clause" 26 67 79 4 4 [(A "FROM" 27 67 71 4 4 []); (B "storage_identifier" 28 72 79 4 4 [(B "identifier" 29 72 79 4 4 [])])] # "from_clause"); (B "where_clause" 30 86 217 5 8 [(A "WHERE" 31 86 91 5 5 []); (B "and_expression" 32 100 217 6 8 [(B "comparison_expression" 33 100 132 6 6 [(B "field_identifier" 34 100 109 6 6 [(B "identifier" 35 100 109 6 6 [])]); (B "set_comparison_operator" 36 110 112 6 6 [(A "IN" 37 110 112 6 6 [])]); (B "bound_apex_expression" 38 113 132 6 6 [(A ":" 39 113 114 6 6 []); (B "identifier" 40 114 132 6 6 [])])]); (A "AND" 41 141 144 7 7 []); (A "(" 42 145 146 7 7 []); (B "and_expression" 43 146 216 7 8 [(B "comparison_expression" 44 146 165 7 7 [(B "field_identifier" 45 146 157 7 7 [(B "identifier" 46 146 157 7 7 [])]); (B "value_comparison_operator" 47 158 160 7 7 [(A "!=" 48 158 160 7 7 [])]); (B "boolean" 49 161 165 7 7 [(A "TRUE" 50 161 165 7 7 [])])]); (A "AND" 51 174 177 8 8 []); (B "comparison_expression" 52 178 216 8 8 [(B "field_identifier" 53 178 208 8 8 [(B "identifier" 54 178 208 8 8 [])]); (B "value_comparison_operator" 55 209 211 8 8 [(A "!=" 56 209 211 8 8 [])]); (B "boolean" 57 212 216 8 8 [(A "TRUE" 58 212 216 8 8 [])])])]); (A ")" 59 216 217 8 8 [])])] # "where_clause")]); (A "]" 60 222 223 9 9 [])] # "value")] # "declarator"); (A ";" 61 223 224 9 9 [])]); (B "local_variable_declaration" 62 230 428 11 18 [(B "type_identifier" 63 230 236 11 11 [] # "type"); (B "variable_declarator" 64 237 427 11 18 [(B "identifier" 65 237 239 11 11 [] # "name"); (B "assignment_operator" 66 240 241 11 11 [(A "=" 67 240 241 11 11 [])]); (B "query_expression" 68 242 427 11 18 [(A "[" 69 242 243 11 11 []); (B "soql_query_body" 70 250 421 12 17 [(B "select_clause" 71 250 266 12 12 [(A "SELECT" 72 250 256 12 12 []); (B "field_identifier" 73 257 266 12 12 [(B "identifier" 74 257 266 12 12 [])])] # "select_clause"); (B "from_clause" 75 273 285 13 13 [(A "FROM" 76 273 277 13 13 []); (B "storage_identifier" 77 278 285 13 13 [(B "identifier" 78 278 285 13 13 [])])] # "from_clause"); (B "where_clause" 79 292 421 14 17 [(A "WHERE" 80 292 297 14 14 []); (B "or_expression" 81 306 421 15 17 [(B "comparison_expression" 82 306 338 15 15 [(B "field_identifier" 83 306 315 15 15 [(B "identifier" 84 306 315 15 15 [])]); (B "set_comparison_operator" 85 316 318 15 15 [(A "IN" 86 316 318 15 15 [])]); (B "bound_apex_expression" 87 319 338 15 15 [(A ":" 88 319 320 15 15 []); (B "identifier" 89 320 338 15 15 [])])]); (A "OR" 90 347 349 16 16 []); (A "(" 91 350 351 16 16 []); (B "or_expression" 92 351 420 16 17 [(B "comparison_expression" 93 351 370 16 16 [(B "field_identifier" 94 351 362 16 16 [(B "identifier" 95 351 362 16 16 [])]); (B "value_comparison_operator" 96 363 365 16 16 [(A "!=" 97 363 365 16 16 [])]); (B "boolean" 98 366 370 16 16 [(A "TRUE" 99 366 370 16 16 [])])]); (A "OR" 100 379 381 17 17 []); (B "comparison_expression" 101 382 420 17 17 [(B "field_identifier" 102 382 412 17 17 [(B "identifier" 103 382 412 17 17 [])]); (B "value_comparison_operator" 104 413 415 17 17 [(A "!=" 105 413 415 17 17 [])]); (B "boolean" 106 416 420 17 17 [(A "TRUE" 107 416 420 17 17 [])])])]); (A ")" 108 420 421 17 17 [])])] # "where_clause")]); (A "]" 109 426 427 18 18 [])] # "value")] # "declarator"); (A ";" 110 427 428 18 18 [])]); (B "local_variable_declaration" 111 434 633 20 27 [(B "type_identifier" 112 434 440 20 20 [] # "type"); (B "variable_declarator" 113 441 632 20 27 [(B "identifier" 114 441 443 20 20 [] # "name"); (B "assignment_operator" 115 444 445 20 20 [(A "=" 116 444 445 20 20 [])]); (B "query_expression" 117 446 632 20 27 [(A "[" 118 446 447 20 20 []); (B "soql_query_body" 119 454 626 21 26 [(B "select_clause" 120 454 470 21 21 [(A "SELECT" 121 454 460 21 21 []); (B "field_identifier" 122 461 470 21 21 [(B "identifier" 123 461 470 21 21 [])])] # "select_clause"); (B "from_clause" 124 477 489 22 22 [(A "FROM" 125 477 481 22 22 []); (B "storage_identifier" 126 482 489 22 22 [(B "identifier" 127 482 489 22 22 [])])] # "from_clause"); (B "where_clause" 128 496 626 23 26 [(A "WHERE" 129 496 501 23 23 []); (B "or_expression" 130 510 626 24 26 [(B "comparison_expression" 131 510 542 24 24 [(B "field_identifier" 132 510 519 24 24 [(B "identifier" 133 510 519 24 24 [])]); (B "set_comparison_operator" 134 520 522 24 24 [(A "IN" 135 520 522 24 24 [])]); (B "bound_apex_expression" 136 523 542 24 24 [(A ":" 137 523 524 24 24 []); (B "identifier" 138 524 542 24 24 [])])]); (A "OR" 139 551 553 25 25 []); (A "(" 140 554 555 25 25 []); (B "and_expression" 141 555 625 25 26 [(B "comparison_expression" 142 555 574 25 25 [(B "field_identifier" 143 555 566 25 25 [(B "identifier" 144 555 566 25 25 [])]); (B "value_comparison_operator" 145 567 569 25 25 [(A "!=" 146 567 569 25 25 [])]); (B "boolean" 147 570 574 25 25 [(A "TRUE" 148 570 574 25 25 [])])]); (A "AND" 149 583 586 26 26 []); (B "comparison_expression" 150 587 625 26 26 [(B "field_identifier" 151 587 617 26 26 [(B "identifier" 152 587 617 26 26 [])]); (B "value_comparison_operator" 153 618 620 26 26 [(A "!=" 154 618 620 26 26 [])]); (B "boolean" 155 621 625 26 26 [(A "TRUE" 156 621 625 26 26 [])])])]); (A ")" 157 625 626 26 26 [])])] # "where_clause")]); (A "]" 158 631 632 27 27 [])] # "value")] # "declarator"); (A ";" 159 632 633 27 27 [])]); (B "local_variable_declaration" 160 639 868 29 37 [(B "type_identifier" 161 639 645 29 29 [] # "type"); (B "variable_declarator" 162 646 867 29 37 [(B "identifier" 163 646 648 29 29 [] # "name"); (B "assignment_operator" 164 649 650 29 29 [(A "=" 165 649 650 29 29 [])]); (B "query_expression" 166 651 867 29 37 [(A "[" 167 651 652 29 29 []); (B "soql_query_body" 168 659 861 30 36 [(B "select_clause" 169 659 675 30 30 [(A "SELECT" 170 659 665 30 30 []); (B "field_identifier" 171 666 675 30 30 [(B "identifier" 172 666 675 30 30 [])])] # "select_clause"); (B "from_clause" 173 682 694 31 31 [(A "FROM" 174 682 686 31 31 []); (B "storage_identifier" 175 687 694 31 31 [(B "identifier" 176 687 694 31 31 [])])] # "from_clause"); (B "where_clause" 177 701 861 32 36 [(A "WHERE" 178 701 706 32 32 []); (B "and_expression" 179 715 861 33 36 [(B "comparison_expression" 180 715 747 33 33 [(B "field_identifier" 181 715 724 33 33 [(B "identifier" 182 715 724 33 33 [])]); (B "set_comparison_operator" 183 725 727 33 33 [(A "IN" 184 725 727 33 33 [])]); (B "bound_apex_expression" 185 728 747 33 33 [(A ":" 186 728 729 33 33 []); (B "identifier" 187 729 747 33 33 [])])]); (A "AND" 188 756 759 34 34 []); (A "(" 189 760 761 34 34 []); (B "or_expression" 190 761 830 34 35 [(B "comparison_expression" 191 761 780 34 34 [(B "field_identifier" 192 761 772 34 34 [(B "identifier" 193 761 772 34 34 [])]); (B "value_comparison_operator" 194 773 775 34 34 [(A "!=" 195 773 775 34 34 [])]); (B "boolean" 196 776 780 34 34 [(A "TRUE" 197 776 780 34 34 [])])]); (A "OR" 198 789 791 35 35 []); (B "comparison_expression" 199 792 830 35 35 [(B "field_identifier" 200 792 822 35 35 [(B "identifier" 201 792 822 35 35 [])]); (B "value_comparison_operator" 202 823 825 35 35 [(A "!=" 203 823 825 35 35 [])]); (B "boolean" 204 826 830 35 35 [(A "TRUE" 205 826 830 35 35 [])])])]); (A ")" 206 830 831 35 35 []); (A "AND" 207 840 843 36 36 []); (B "comparison_expression" 208 844 861 36 36 [(B "field_identifier" 209 844 853 36 36 [(B "identifier" 210 844 853 36 36 [])]); (B "value_comparison_operator" 211 854 856 36 36 [(A "!=" 212 854 856 36 36 [])]); (B "null_literal" 213 857 861 36 36 [])])])] # "where_clause")]); (A "]" 214 866 867 37 37 [])] # "value")] # "declarator"); (A ";" 215 867 868 37 37 [])]); (A "}" 216 871 872 38 38 [])]); (A "}" 217 873 874 39 39 [])] # "body")])]).
Example prettier80_soql_remove_bracket : as_expected prettier80_soql_remove_bracket_source prettier80_soql_remove_bracket_tree (U "public class A {
  {
    String s = [
      SELECT AccountId
      FROM Contact
      WHERE
        AccountId IN :accountIdsToUpdate
        AND Deceased__c != TRUE
        AND Exclude_from_Household_Name__c != TRUE
    ];

    String s2 = [
      SELECT AccountId
      FROM Contact
      WHERE
        AccountId IN :accountIdsToUpdate
        OR Deceased__c != TRUE
        OR Exclude_from_Household_Name__c != TRUE
    ];

    String s2 = [
      SELECT AccountId
      FROM Contact
      WHERE
        AccountId IN :accountIdsToUpdate
        OR (Deceased__c != TRUE
        AND Exclude_from_Household_Name__c != TRUE)
    ];

    String s3 = [
      SELECT AccountId
      FROM Contact
      WHERE
        AccountId IN :accountIdsToUpdate
        AND (Deceased__c != TRUE
        OR Exclude_from_Household_Name__c != TRUE)
        AND AccountId != NULL
    ];
  }
}
").
Proof. apply run_test_ok. vm_compute. reflexivity. Qed.

(* tests/prettier80/sta1.in *)
Definition prettier80_sta1_source : ustr := U "class BlockMember {
        static 

      {
          System.debug('Static Statement Block Member')  ;
    }
}
".
Definition prettier80_sta1_tree : span := (B "parser_output" 1 0 112 0 7 [(B "class_declaration" 2 0 111 0 6 [(A "class" 3 0 5 0 0 []); (B "identifier" 4 6 17 0 0 [] # "name"); (B "class_body" 5 18 111 0 6 [(A "{" 6 18 19 0 0 []); (B "static_initializer" 7 28 109 1 5 [(A "static" 8 28 34 1 1 []); (B "block" 9 43 109 3 5 [(A "{" 10 43 44 3 3 []); (B "expression_statement" 11 55 103 4 4 [(B "method_invocation" 12 55 100 4 4 [(B "identifier" 13 55 61 4 4 [] # "object"); (A "." 14 61 62 4 4 []); (B "identifier" 15 62 67 4 4 [] # "name"); (B "argument_list" 16 67 100 4 4 [(A "(" 17 67 68 4 4 []); (B "string_literal" 18 68 99 4 4 []); (A ")" 19 99 100 4 4 [])] # "arguments")]); (A ";" 20 102 103 4 4 [])]); (A "}" 21 108 109 5 5 [])])]); (A "}" 22 110 111 6 6 [])] # "body")])]).
Example prettier80_sta1 : as_expected prettier80_sta1_source prettier80_sta1_tree (U "class BlockMember {
  static {
    System.debug('Static Statement Block Member');
  }
}
").
Proof. apply run_test_ok. vm_compute. reflexivity. Qed.

(* tests/prettier80/static_final_param.in *)
Definition prettier80_static_final_param_source : ustr := U "class LongParam {
  public String sayHelloWithModifier(

  static final String subject
  ) {
    return   null ;

  }
}
".
Definition prettier80_static_final_param_tree : span := (B "parser_output" 1 0 120 0 9 [(B "class_declaration" 2 0 119 0 8 [(A "class" 3 0 5 0 0 []); (B "identifier" 4 6 15 0 0 [] # "name"); (B "class_body" 5 16 119 0 8 [(A "{" 6 16 17 0 0 []); (B "method_declaration" 7 20 117 1 7 [(B "modifiers" 8 20 26 1 1 [(B "modifier" 9 20 26 1 1 [(B "public" 10 20 26 1 1 [(A "public" 11 20 26 1 1 [])])])]); (B "type_identifier" 12 27 33 1 1 [] # "type"); (B "identifier" 13 34 54 1 1 [] # "name"); (B "formal_parameters" 14 54 90 1 4 [(A "(" 15 54 55 1 1 []); (B "formal_parameter" 16 59 86 3 3 [(B "modifiers" 17 59 71 3 3 [(B "modifier" 18 59 65 3 3 [(B "static" 19 59 65 3 3 [(A "static" 20 59 65 3 3 [])])]); (B "modifier" 21 66 71 3 3 [(B "final" 22 66 71 3 3 [(A "final" 23 66 71 3 3 [])])])]); (B "type_identifier" 24 72 78 3 3 [] # "type"); (B "identifier" 25 79 86 3 3 [] # "name")]); (A ")" 26 89 90 4 4 [])] # "parameters"); (B "block" 27 91 117 4 7 [(A "{" 28 91 92 4 4 []); (B "return_statement" 29 97 112 5 5 [(A "return" 30 97 103 5 5 []); (B "null_literal" 31 106 110 5 5 []); (A ";" 32 111 112 5 5 [])]); (A "}" 33 116 117 7 7 [])] # "body")]); (A "}" 34 118 119 8 8 [])] # "body")])]).
Example prettier80_static_final_param : as_expected prettier80_static_final_param_source prettier80_static_final_param_tree (U "class LongParam {
  public String sayHelloWithModifier(static final String subject) {
    return null;
  }
}
").
Proof. apply run_test_ok. vm_compute. reflexivity. Qed.

(* tests/prettier80/subquery.in *)
Definition prettier80_subquery_source : ustr := U "class SafeNavigationOperator {
  public List<SObject> selectSObjectsById(Set<Id> idSet) {
    PermissionSet ps = [
      SELECT Id
      FROM PermissionSet
      WHERE Id IN (SELECT Id FROM P)
      LIMIT 1
    ];
  }
}

".
Definition prettier80_subquery_tree : span := (B "parser_output" 1 0 221 0 11 [(B "class_declaration" 2 0 219 0 9 [(A "class" 3 0 5 0 0 []); (B "identifier" 4 6 28 0 0 [] # "name"); (B "class_body" 5 29 219 0 9 [(A "{" 6 29 30 0 0 []); (B "method_declaration" 7 33 217 1 8 [(B "modifiers" 8 33 39 1 1 [(B "modifier" 9 33 39 1 1 [(B "public" 10 33 39 1 1 [(A "public" 11 33 39 1 1 [])])])]); (B "generic_type" 12 40 53 1 1 [(B "type_identifier" 13 40 44 1 1 []); (B "type_arguments" 14 44 53 1 1 [(A "<" 15 44 45 1 1 []); (B "type_identifier" 16 45 52 1 1 []); (A ">" 17 52 53 1 1 [])])] # "type"); (B "identifier" 18 54 72 1 1 [] # "name"); (B "formal_parameters" 19 72 87 1 1 [(A "(" 20 72 73 1 1 []); (B "formal_parameter" 21 73 86 1 1 [(B "generic_type" 22 73 80 1 1 [(B "type_identifier" 23 73 76 1 1 []); (B "type_arguments" 24 76 80 1 1 [(A "<" 25 76 77 1 1 []); (B "type_identifier" 26 77 79 1 1 []); (A ">" 27 79 80 1 1 [])])] # "type"); (B "identifier" 28 81 86 1 1 [] # "name")]); (A ")" 29 86 87 1 1 [])] # "parameters"); (B "block" 30 88 217 1 8 [(A "{" 31 88 89 1 1 []); (B "local_variable_declaration" 32 94 213 2 7 [(B "type_identifier" 33 94 107 2 2 [] # "type"); (B "variable_declarator" 34 108 212 2 7 [(B "identifier" 35 108 110 2 2 [] # "name"); (B "assignment_operator" 36 111 112 2 2 [(A "=" 37 111 112 2 2 [])]); (B "query_expression" 38 113 212 2 7 [(A "[" 39 113 114 2 2 []); (B "soql_query_body" 40 121 206 3 6 [(B "select_clause" 41 121 130 3 3 [(A "SELECT" 42 121 127 3 3 []); (B "field_identifier" 43 128 130 3 3 [(B "identifier" 44 128 130 3 3 [])])] # "select_clause"); (B "from_clause" 45 137 155 4 4 [(A "FROM" 46 137 141 4 4 []); (B "storage_identifier" 47 142 155 4 4 [(B "identifier" 48 142 155 4 4 [])])] # "from_clause"); (B "where_clause" 49 162 192 5 5 [(A "WHERE" 50 162 167 5 5 []); (B "comparison_expression" 51 168 192 5 5 [(B "field_identifier" 52 168 170 5 5 [(B "identifier" 53 168 170 5 5 [])]); (B "set_comparison_operator" 54 171 173 5 5 [(A "IN" 55 171 173 5 5 [])]); (B "subquery" 56 174 192 5 5 [(A "(" 57 174 175 5 5 []); (B "soql_query_body" 58 175 191 5 5 [(B "select_clause" 59 175 184 5 5 [(A "SELECT" 60 175 181 5 5 []); (B "field_identifier" 61 182 184 5 5 [(B "identifier" 62 182 184 5 5 [])])] # "select_clause"); (B "from_clause" 63 185 191 5 5 [(A "FROM" 64 185 189 5 5 []); (B "storage_identifier" 65 190 191 5 5 [(B "identifier" 66 190 191 5 5 [])])] # "from_clause")]); (A ")" 67 191 192 5 5 [])])])] # "where_clause"); (B "limit_clause" 68 199 206 6 6 [(A "LIMIT" 69 199 204 6 6 []); (B "int" 70 205 206 6 6 [])] # "limit_clause")]); (A "]" 71 211 212 7 7 [])] # "value")] # "declarator"); (A ";" 72 212 213 7 7 [])]); (A "}" 73 216 217 8 8 [])] # "body")]); (A "}" 74 218 219 9 9 [])] # "body")])]).
Example prettier80_subquery : as_expected prettier80_subquery_source prettier80_subquery_tree (U "class SafeNavigationOperator {
  public List<SObject> selectSObjectsById(Set<Id> idSet) {
    PermissionSet ps = [
      SELECT Id
      FROM PermissionSet
      WHERE Id IN (SELECT Id FROM P)
      LIMIT 1
    ];
  }
}
").
Proof. apply run_test_ok. vm_compute. reflexivity. Qed.

(* tests/prettier80/subquery_line_wrap1.in *)
Definition prettier80_subquery_line_wrap1_source : ustr := U "class A {
  {
    [
      SELECT
        Undeliverable_Address__c,
        (SELECT is_Address_Override__c, is_B__c, Undeliverable_Address__c FROM Contacts)
      FROM Account
      WHERE Id IN :accountIds
    ];
  }
}
".
Definition prettier80_subquery_line_wrap1_tree : span := (B "parser_output" 1 0 218 0 11 [(B "class_declaration" 2 0 217 0 10 [(A "class" 3 0 5 0 0 []); (B "identifier" 4 6 7 0 0 [] # "name"); (B "class_body" 5 8 217 0 10 [(A "{" 6 8 9 0 0 []); (B "block" 7 12 215 1 9 [(A "{" 8 12 13 1 1 []); (B "expression_statement" 9 18 211 2 8 [(B "query_expression" 10 18 210 2 8 [(A "[" 11 18 19 2 2 []); (B "soql_query_body" 12 26 204 3 7 [(B "select_clause" 13 26 155 3 5 [(A "SELECT" 14 26 32 3 3 []); (B "field_identifier" 15 41 65 4 4 [(B "identifier" 16 41 65 4 4 [])]); (A "," 17 65 66 4 4 []); (B "subquery" 18 75 155 5 5 [(A "(" 19 75 76 5 5 []); (B "soql_query_body" 20 76 154 5 5 [(B "select_clause" 21 76 140 5 5 [(A "SELECT" 22 76 82 5 5 []); (B "field_identifier" 23 83 105 5 5 [(B "identifier" 24 83 105 5 5 [])]); (A "," 25 105 106 5 5 []); (B "field_identifier" 26 107 114 5 5 [(B "identifier" 27 107 114 5 5 [])]); (A "," 28 114 115 5 5 []); (B "field_identifier" 29 116 140 5 5 [(B "identifier" 30 116 140 5 5 [])])] # "select_clause"); (B "from_clause" 31 141 154 5 5 [(A "FROM" 32 141 145 5 5 []); (B "storage_identifier" 33 146 154 5 5 [(B "identifier" 34 146 154 5 5 [])])] # "from_clause")]); (A ")" 35 154 155 5 5 [])])] # "select_clause"); (B "from_clause" 36 162 174 6 6 [(A "FROM" 37 162 166 6 6 []); (B "storage_identifier" 38 167 174 6 6 [(B "identifier" 39 167 174 6 6 [])])] # "from_clause"); (B "where_clause" 40 181 204 7 7 [(A "WHERE" 41 181 186 7 7 []); (B "comparison_expression" 42 187 204 7 7 [(B "field_identifier" 43 187 189 7 7 [(B "identifier" 44 187 189 7 7 [])]); (B "set_comparison_operator" 45 190 192 7 7 [(A "IN" 46 190 192 7 7 [])]); (B "bound_apex_expression" 47 193 204 7 7 [(A ":" 48 193 194 7 7 []); (B "identifier" 49 194 204 7 7 [])])])] # "where_clause")]); (A "]" 50 209 210 8 8 [])]); (A ";" 51 210 211 8 8 [])]); (A "}" 52 214 215 9 9 [])]); (A "}" 53 216 217 10 10 [])] # "body")])]).
Example prettier80_subquery_line_wrap1 : as_expected prettier80_subquery_line_wrap1_source prettier80_subquery_line_wrap1_tree (U "class A {
  {
    [
      SELECT
        Undeliverable_Address__c,
        (
          SELECT is_Address_Override__c, is_B__c, Undeliverable_Address__c
          FROM Contacts
        )
      FROM Account
      WHERE Id IN :accountIds
    ];
  }
}
").
Proof. apply run_test_ok. vm_compute. reflexivity. Qed.

(* tests/prettier80/sw1.in *)
Definition prettier80_sw1_source : ustr := U "public class Me {
    {
        Integer i = 0;

          switch   on i {
            when    2 

            {
                System.debug('when block 2');
            }
            when null    {
                  System.debug('bad integer');
      }
              when   else   {
                  System.debug('default ' + i);
    }
        }
    }
}
".
Definition prettier80_sw1_tree : span := (B "parser_output" 1 0 356 0 19 [(B "class_declaration" 2 0 355 0 18 [(B "modifiers" 3 0 6 0 0 [(B "modifier" 4 0 6 0 0 [(B "public" 5 0 6 0 0 [(A "public" 6 0 6 0 0 [])])])]); (A "class" 7 7 12 0 0 []); (B "identifier" 8 13 15 0 0 [] # "name"); (B "class_body" 9 16 355 0 18 [(A "{" 10 16 17 0 0 []); (B "block" 11 22 353 1 17 [(A "{" 12 22 23 1 1 []); (B "local_variable_declaration" 13 32 46 2 2 [(B "type_identifier" 14 32 39 2 2 [] # "type"); (B "variable_declarator" 15 40 45 2 2 [(B "identifier" 16 40 41 2 2 [] # "name"); (B "assignment_operator" 17 42 43 2 2 [(A "=" 18 42 43 2 2 [])]); (B "int" 19 44 45 2 2 [] # "value")] # "declarator"); (A ";" 20 45 46 2 2 [])]); (B "switch_expression" 21 58 347 4 16 [(A "switch" 22 58 64 4 4 []); (A "on" 23 67 69 4 4 []); (B "identifier" 24 70 71 4 4 [] # "condition"); (B "switch_block" 25 72 347 4 16 [(A "{" 26 72 73 4 4 []); (B "switch_rule" 27 86 171 5 9 [(B "switch_label" 28 86 95 5 5 [(A "when" 29 86 90 5 5 []); (B "int" 30 94 95 5 5 [])]); (B "block" 31 110 171 7 9 [(A "{" 32 110 111 7 7 []); (B "expression_statement" 33 128 157 8 8 [(B "method_invocation" 34 128 156 8 8 [(B "identifier" 35 128 134 8 8 [] # "object"); (A "." 36 134 135 8 8 []); (B "identifier" 37 135 140 8 8 [] # "name"); (B "argument_list" 38 140 156 8 8 [(A "(" 39 140 141 8 8 []); (B "string_literal" 40 141 155 8 8 []); (A ")" 41 155 156 8 8 [])] # "arguments")]); (A ";" 42 156 157 8 8 [])]); (A "}" 43 170 171 9 9 [])])]); (B "switch_rule" 44 184 253 10 12 [(B "switch_label" 45 184 193 10 10 [(A "when" 46 184 188 10 10 []); (B "null_literal" 47 189 193 10 10 [])]); (B "block" 48 197 253 10 12 [(A "{" 49 197 198 10 10 []); (B "expression_statement" 50 217 245 11 11 [(B "method_invocation" 51 217 244 11 11 [(B "identifier" 52 217 223 11 11 [] # "object"); (A "." 53 223 224 11 11 []); (B "identifier" 54 224 229 11 11 [] # "name"); (B "argument_list" 55 229 244 11 11 [(A "(" 56 229 230 11 11 []); (B "string_literal" 57 230 243 11 11 []); (A ")" 58 243 244 11 11 [])] # "arguments")]); (A ";" 59 244 245 11 11 [])]); (A "}" 60 252 253 12 12 [])])]); (B "switch_rule" 61 268 337 13 15 [(B "switch_label" 62 268 279 13 13 [(A "when" 63 268 272 13 13 []); (A "else" 64 275 279 13 13 [])]); (B "block" 65 282 337 13 15 [(A "{" 66 282 283 13 13 []); (B "expression_statement" 67 302 331 14 14 [(B "method_invocation" 68 302 330 14 14 [(B "identifier" 69 302 308 14 14 [] # "object"); (A "." 70 308 309 14 14 []); (B "identifier" 71 309 314 14 14 [] # "name"); (B "argument_list" 72 314 330 14 14 [(A "(" 73 314 315 14 14 []); (B "binary_expression" 74 315 329 14 14 [(B "string_literal" 75 315 325 14 14 [] # "left"); (A "+" 76 326 327 14 14 [] # "operator"); (B "identifier" 77 328 329 14 14 [] # "right")]); (A ")" 78 329 330 14 14 [])] # "arguments")]); (A ";" 79 330 331 14 14 [])]); (A "}" 80 336 337 15 15 [])])]); (A "}" 81 346 347 16 16 [])] # "body")]); (A "}" 82 352 353 17 17 [])]); (A "}" 83 354 355 18 18 [])] # "body")])]).
Example prettier80_sw1 : as_expected prettier80_sw1_source prettier80_sw1_tree (U "public class Me {
  {
    Integer i = 0;

    switch on i {
      when 2 {
        System.debug('when block 2');
      }
      when null {
        System.debug('bad integer');
      }
      when else {
        System.debug('default ' + i);
      }
    }
  }
}
").
Proof. apply run_test_ok. vm_compute. reflexivity. Qed.

(* the trees of this file *)
Definition trees : list node :=
  [grow 0 prettier80_Trigger_source prettier80_Trigger_tree;
   grow 0 prettier80_Unicode_source prettier80_Unicode_tree;
   grow 0 prettier80_VariableDeclaration_source prettier80_VariableDeclaration_tree;
   grow 0 prettier80_WithFinalNewLine_source prettier80_WithFinalNewLine_tree;
   grow 0 prettier80_WithoutFinalNewLine_source prettier80_WithoutFinalNewLine_tree;
   grow 0 prettier80_a1_source prettier80_a1_tree;
   grow 0 prettier80_a2_source prettier80_a2_tree;
   grow 0 prettier80_a3_source prettier80_a3_tree;
   grow 0 prettier80_a4_source prettier80_a4_tree;
   grow 0 prettier80_a5_source prettier80_a5_tree;
   grow 0 prettier80_a6_source prettier80_a6_tree;
   grow 0 prettier80_access_declaration_source prettier80_access_declaration_tree;
   grow 0 prettier80_anno2_source prettier80_anno2_tree;
   grow 0 prettier80_anno3_source prettier80_anno3_tree;
   grow 0 prettier80_array_vs_object_creation_source prettier80_array_vs_object_creation_tree;
   grow 0 prettier80_binary_exp_nested_source prettier80_binary_exp_nested_tree;
   grow 0 prettier80_binary_exp_no_warp_source prettier80_binary_exp_no_warp_tree;
   grow 0 prettier80_body_spaces_source prettier80_body_spaces_tree;
   grow 0 prettier80_bug92_source prettier80_bug92_tree;
   grow 0 prettier80_c1_source prettier80_c1_tree;
   grow 0 prettier80_c2_source prettier80_c2_tree;
   grow 0 prettier80_c3_source prettier80_c3_tree;
   grow 0 prettier80_c4_source prettier80_c4_tree;
   grow 0 prettier80_c5_source prettier80_c5_tree;
   grow 0 prettier80_c8_source prettier80_c8_tree;
   grow 0 prettier80_cast1_source prettier80_cast1_tree;
   grow 0 prettier80_class_literal_source prettier80_class_literal_tree;
   grow 0 prettier80_comment1_source prettier80_comment1_tree;
   grow 0 prettier80_comments_in_soql_source prettier80_comments_in_soql_tree;
   grow 0 prettier80_con10_source prettier80_con10_tree;
   grow 0 prettier80_con11_source prettier80_con11_tree;
   grow 0 prettier80_con12_source prettier80_con12_tree;
   grow 0 prettier80_con13_source prettier80_con13_tree;
   grow 0 prettier80_con15_source prettier80_con15_tree;
   grow 0 prettier80_con16_source prettier80_con16_tree;
   grow 0 prettier80_con7_source prettier80_con7_tree;
   grow 0 prettier80_con8_source prettier80_con8_tree;
   grow 0 prettier80_con9_source prettier80_con9_tree;
   grow 0 prettier80_cons2_source prettier80_cons2_tree;
   grow 0 prettier80_constructor1_source prettier80_constructor1_tree;
   grow 0 prettier80_d5_source prettier80_d5_tree;
   grow 0 prettier80_d6_source prettier80_d6_tree;
   grow 0 prettier80_d7_source prettier80_d7_tree;
   grow 0 prettier80_d8_source prettier80_d8_tree;
   grow 0 prettier80_d9_source prettier80_d9_tree;
   grow 0 prettier80_dml1_source prettier80_dml1_tree;
   grow 0 prettier80_dml2_source prettier80_dml2_tree;
   grow 0 prettier80_dml3_source prettier80_dml3_tree;
   grow 0 prettier80_dml4_source prettier80_dml4_tree;
   grow 0 prettier80_dml5_source prettier80_dml5_tree;
   grow 0 prettier80_dml6_source prettier80_dml6_tree;
   grow 0 prettier80_dml7_source prettier80_dml7_tree;
   grow 0 prettier80_dml8_source prettier80_dml8_tree;
   grow 0 prettier80_empty_block_source prettier80_empty_block_tree;
   grow 0 prettier80_enum1_source prettier80_enum1_tree;
   grow 0 prettier80_enum2_source prettier80_enum2_tree;
   grow 0 prettier80_enum3_source prettier80_enum3_tree;
   grow 0 prettier80_ex1_source prettier80_ex1_tree;
   grow 0 prettier80_ex2_source prettier80_ex2_tree;
   grow 0 prettier80_ex3_source prettier80_ex3_tree;
   grow 0 prettier80_ex4_source prettier80_ex4_tree;
   grow 0 prettier80_exp_source prettier80_exp_tree;
   grow 0 prettier80_field_access1_source prettier80_field_access1_tree;
   grow 0 prettier80_field_access2_source prettier80_field_access2_tree;
   grow 0 prettier80_field_declar_source prettier80_field_declar_tree;
   grow 0 prettier80_for1_source prettier80_for1_tree;
   grow 0 prettier80_for_loop1_source prettier80_for_loop1_tree;
   grow 0 prettier80_getter_setter_wrap_source prettier80_getter_setter_wrap_tree;
   grow 0 prettier80_if_source prettier80_if_tree;
   grow 0 prettier80_if1_source prettier80_if1_tree;
   grow 0 prettier80_if2_source prettier80_if2_tree;
   grow 0 prettier80_if3_source prettier80_if3_tree;
   grow 0 prettier80_if4_source prettier80_if4_tree;
   grow 0 prettier80_if6_source prettier80_if6_tree;
   grow 0 prettier80_li1_source prettier80_li1_tree;
   grow 0 prettier80_li3_source prettier80_li3_tree;
   grow 0 prettier80_local_variable_declar_source prettier80_local_variable_declar_tree;
   grow 0 prettier80_m1_source prettier80_m1_tree;
   grow 0 prettier80_m2_source prettier80_m2_tree;
   grow 0 prettier80_m3_source prettier80_m3_tree;
   grow 0 prettier80_m4_source prettier80_m4_tree;
   grow 0 prettier80_m5_source prettier80_m5_tree;
   grow 0 prettier80_m6_source prettier80_m6_tree;
   grow 0 prettier80_m7_source prettier80_m7_tree;
   grow 0 prettier80_m8_source prettier80_m8_tree;
   grow 0 prettier80_method_chain_method_argument_source prettier80_method_chain_method_argument_tree;
   grow 0 prettier80_method_invocation_wrap_source prettier80_method_invocation_wrap_tree;
   grow 0 prettier80_method_wrap80_source prettier80_method_wrap80_tree;
   grow 0 prettier80_method_wrap81_source prettier80_method_wrap81_tree;
   grow 0 prettier80_new_line1_source prettier80_new_line1_tree;
   grow 0 prettier80_o10_source prettier80_o10_tree;
   grow 0 prettier80_o11_source prettier80_o11_tree;
   grow 0 prettier80_o12_source prettier80_o12_tree;
   grow 0 prettier80_o13_source prettier80_o13_tree;
   grow 0 prettier80_o14_source prettier80_o14_tree;
   grow 0 prettier80_o15_source prettier80_o15_tree;
   grow 0 prettier80_o16_source prettier80_o16_tree;
   grow 0 prettier80_o17_source prettier80_o17_tree;
   grow 0 prettier80_o18_source prettier80_o18_tree;
   grow 0 prettier80_o19_source prettier80_o19_tree;
   grow 0 prettier80_o2_source prettier80_o2_tree;
   grow 0 prettier80_o20_source prettier80_o20_tree;
   grow 0 prettier80_o21_source prettier80_o21_tree;
   grow 0 prettier80_o22_source prettier80_o22_tree;
   grow 0 prettier80_o3_source prettier80_o3_tree;
   grow 0 prettier80_o4_source prettier80_o4_tree;
   grow 0 prettier80_o5_source prettier80_o5_tree;
   grow 0 prettier80_o6_source prettier80_o6_tree;
   grow 0 prettier80_o7_source prettier80_o7_tree;
   grow 0 prettier80_o8_source prettier80_o8_tree;
   grow 0 prettier80_o9_source prettier80_o9_tree;
   grow 0 prettier80_operator_source prettier80_operator_tree;
   grow 0 prettier80_p1_source prettier80_p1_tree;
   grow 0 prettier80_p2_source prettier80_p2_tree;
   grow 0 prettier80_p3_source prettier80_p3_tree;
   grow 0 prettier80_p4_source prettier80_p4_tree;
   grow 0 prettier80_p5_source prettier80_p5_tree;
   grow 0 prettier80_p6_source prettier80_p6_tree;
   grow 0 prettier80_post_comment_body_member_source prettier80_post_comment_body_member_tree;
   grow 0 prettier80_prop_source prettier80_prop_tree;
   grow 0 prettier80_prop6_source prettier80_prop6_tree;
   grow 0 prettier80_s12_source prettier80_s12_tree;
   grow 0 prettier80_s2_source prettier80_s2_tree;
   grow 0 prettier80_s3_source prettier80_s3_tree;
   grow 0 prettier80_s4_source prettier80_s4_tree;
   grow 0 prettier80_s7_source prettier80_s7_tree;
   grow 0 prettier80_simple_chaining_and_safty_source prettier80_simple_chaining_and_safty_tree;
   grow 0 prettier80_soql1_source prettier80_soql1_tree;
   grow 0 prettier80_soql10_source prettier80_soql10_tree;
   grow 0 prettier80_soql11_source prettier80_soql11_tree;
   grow 0 prettier80_soql12_source prettier80_soql12_tree;
   grow 0 prettier80_soql12_group_by_source prettier80_soql12_group_by_tree;
   grow 0 prettier80_soql13_source prettier80_soql13_tree;
   grow 0 prettier80_soql15_source prettier80_soql15_tree;
   grow 0 prettier80_soql16_source prettier80_soql16_tree;
   grow 0 prettier80_soql18_source prettier80_soql18_tree;
   grow 0 prettier80_soql19_source prettier80_soql19_tree;
   grow 0 prettier80_soql2_source prettier80_soql2_tree;
   grow 0 prettier80_soql3_source prettier80_soql3_tree;
   grow 0 prettier80_soql4_source prettier80_soql4_tree;
   grow 0 prettier80_soql5_source prettier80_soql5_tree;
   grow 0 prettier80_soql6_source prettier80_soql6_tree;
   grow 0 prettier80_soql7_source prettier80_soql7_tree;
   grow 0 prettier80_soql8_source prettier80_soql8_tree;
   grow 0 prettier80_soql9_source prettier80_soql9_tree;
   grow 0 prettier80_soql_bracket_handling_source prettier80_soql_bracket_handling_tree;
   grow 0 prettier80_soql_having1_source prettier80_soql_having1_tree;
   grow 0 prettier80_soql_remove_bracket_source prettier80_soql_remove_bracket_tree;
   grow 0 prettier80_sta1_source prettier80_sta1_tree;
   grow 0 prettier80_static_final_param_source prettier80_static_final_param_tree;
   grow 0 prettier80_subquery_source prettier80_subquery_tree;
   grow 0 prettier80_subquery_line_wrap1_source prettier80_subquery_line_wrap1_tree;
   grow 0 prettier80_sw1_source prettier80_sw1_tree].
