(* Written by conformance/gen.py. Each Example is one test of the project: the source is the text
   of the .in file named above it, the tree is the one conformance/apex.py reads from that text, and
   the expected text is the .cls file beside it. tests/test.rs runs the same comparison. *)
From Coq Require Import List String NArith.
From Verif Require Import Base Cst ConfTrees.
Import ListNotations.
Local Open Scope string_scope.
Local Open Scope list_scope.

(* tests/prettier80/AnnotatedClass.in *)
Definition prettier80_AnnotatedClass_source : ustr := U "@IsTest class TestClass
{}

".
Definition prettier80_AnnotatedClass_tree : span := (B "parser_output" 1 0 28 0 3 [(B "class_declaration" 2 0 26 0 1 [(B "modifiers" 3 0 7 0 0 [(B "annotation" 4 0 7 0 0 [(A "@" 5 0 1 0 0 []); (B "identifier" 6 1 7 0 0 [] # "name")])]); (A "class" 7 8 13 0 0 []); (B "identifier" 8 14 23 0 0 [] # "name"); (B "class_body" 9 24 26 1 1 [(A "{" 10 24 25 1 1 []); (A "}" 11 25 26 1 1 [])] # "body")])]).
Example prettier80_AnnotatedClass : as_expected prettier80_AnnotatedClass_source prettier80_AnnotatedClass_tree (U "@IsTest
class TestClass {
}
").
Proof. apply run_test_ok. vm_compute. reflexivity. Qed.

(* tests/prettier80/AnnotatedFalseParamClass.in *)
Definition prettier80_AnnotatedFalseParamClass_source : ustr := U "@IsTest(SeeAllData=false) class AnnotatedFalseParamClass
{}

".
Definition prettier80_AnnotatedFalseParamClass_tree : span := (B "parser_output" 1 0 61 0 3 [(B "class_declaration" 2 0 59 0 1 [(B "modifiers" 3 0 25 0 0 [(B "annotation" 4 0 25 0 0 [(A "@" 5 0 1 0 0 []); (B "identifier" 6 1 7 0 0 [] # "name"); (B "annotation_argument_list" 7 7 25 0 0 [(A "(" 8 7 8 0 0 []); (B "annotation_key_value" 9 8 24 0 0 [(B "identifier" 10 8 18 0 0 [] # "key"); (A "=" 11 18 19 0 0 []); (B "boolean" 12 19 24 0 0 [(A "false" 13 19 24 0 0 [])] # "value")]); (A ")" 14 24 25 0 0 [])] # "arguments")])]); (A "class" 15 26 31 0 0 []); (B "identifier" 16 32 56 0 0 [] # "name"); (B "class_body" 17 57 59 1 1 [(A "{" 18 57 58 1 1 []); (A "}" 19 58 59 1 1 [])] # "body")])]).
Example prettier80_AnnotatedFalseParamClass : as_expected prettier80_AnnotatedFalseParamClass_source prettier80_AnnotatedFalseParamClass_tree (U "@IsTest(SeeAllData=false)
class AnnotatedFalseParamClass {
}
").
Proof. apply run_test_ok. vm_compute. reflexivity. Qed.

(* tests/prettier80/AnnotatedMethod.in *)
Definition prettier80_AnnotatedMethod_source : ustr := U "class topLevelClass {
  @AuraEnabled
  public String someProperty {
    get;
    set;
  }

  @AuraEnabled(cacheable=true continuation=true)
  public static Account getAccount(Id accountId) {
  }

  @SuppressWarnings('PMD.ApexCRUDViolation')
  void someMethod(){}

  @SuppressWarnings('PMD.ApexCRUDViolation, PMD.AnotherViolation')
  void anotherMethod(){}

  @InvocableMethod(label='Label' description='Description' category='Category')
  List<String> getAccountNames(List<ID> ids) {}

  @InvocableMethod(callout=true)
  List<String> getAccountNamesWithCallout(List<ID> ids) {}

}
".
Definition prettier80_AnnotatedMethod_tree : span := (B "parser_output" 1 0 581 0 24 [(B "class_declaration" 2 0 580 0 23 [(A "class" 3 0 5 0 0 []); (B "identifier" 4 6 19 0 0 [] # "name"); (B "class_body" 5 20 580 0 23 [(A "{" 6 20 21 0 0 []); (B "field_declaration" 7 24 89 1 5 [(B "modifiers" 8 24 45 1 2 [(B "annotation" 9 24 36 1 1 [(A "@" 10 24 25 1 1 []); (B "identifier" 11 25 36 1 1 [] # "name")]); (B "modifier" 12 39 45 2 2 [(B "public" 13 39 45 2 2 [(A "public" 14 39 45 2 2 [])])])]); (B "type_identifier" 15 46 52 2 2 [] # "type"); (B "variable_declarator" 16 53 65 2 2 [(B "identifier" 17 53 65 2 2 [] # "name")] # "declarator"); (B "accessor_list" 18 66 89 2 5 [(A "{" 19 66 67 2 2 []); (B "accessor_declaration" 20 72 76 3 3 [(A "get" 21 72 75 3 3 [] # "accessor"); (A ";" 22 75 76 3 3 [])]); (B "accessor_declaration" 23 81 85 4 4 [(A "set" 24 81 84 4 4 [] # "accessor"); (A ";" 25 84 85 4 4 [])]); (A "}" 26 88 89 5 5 [])])]); (B "method_declaration" 27 93 194 7 9 [(B "modifiers" 28 93 155 7 8 [(B "annotation" 29 93 139 7 7 [(A "@" 30 93 94 7 7 []); (B "identifier" 31 94 105 7 7 [] # "name"); (B "annotation_argument_list" 32 105 139 7 7 [(A "(" 33 105 106 7 7 []); (B "annotation_key_value" 34 106 120 7 7 [(B "identifier" 35 106 115 7 7 [] # "key"); (A "=" 36 115 116 7 7 []); (B "boolean" 37 116 120 7 7 [(A "true" 38 116 120 7 7 [])] # "value")]); (B "annotation_key_value" 39 121 138 7 7 [(B "identifier" 40 121 133 7 7 [] # "key"); (A "=" 41 133 134 7 7 []); (B "boolean" 42 134 138 7 7 [(A "true" 43 134 138 7 7 [])] # "value")]); (A ")" 44 138 139 7 7 [])] # "arguments")]); (B "modifier" 45 142 148 8 8 [(B "public" 46 142 148 8 8 [(A "public" 47 142 148 8 8 [])])]); (B "modifier" 48 149 155 8 8 [(B "static" 49 149 155 8 8 [(A "static" 50 149 155 8 8 [])])])]); (B "type_identifier" 51 156 163 8 8 [] # "type"); (B "identifier" 52 164 174 8 8 [] # "name"); (B "formal_parameters" 53 174 188 8 8 [(A "(" 54 174 175 8 8 []); (B "formal_parameter" 55 175 187 8 8 [(B "type_identifier" 56 175 177 8 8 [] # "type"); (B "identifier" 57 178 187 8 8 [] # "name")]); (A ")" 58 187 188 8 8 [])] # "parameters"); (B "block" 59 189 194 8 9 [(A "{" 60 189 190 8 8 []); (A "}" 61 193 194 9 9 [])] # "body")]); (B "method_declaration" 62 198 262 11 12 [(B "modifiers" 63 198 240 11 11 [(B "annotation" 64 198 240 11 11 [(A "@" 65 198 199 11 11 []); (B "identifier" 66 199 215 11 11 [] # "name"); (B "annotation_argument_list" 67 215 240 11 11 [(A "(" 68 215 216 11 11 []); (B "string_literal" 69 216 239 11 11 [] # "value"); (A ")" 70 239 240 11 11 [])] # "arguments")])]); (B "void_type" 71 243 247 12 12 [] # "type"); (B "identifier" 72 248 258 12 12 [] # "name"); (B "formal_parameters" 73 258 260 12 12 [(A "(" 74 258 259 12 12 []); (A ")" 75 259 260 12 12 [])] # "parameters"); (B "block" 76 260 262 12 12 [(A "{" 77 260 261 12 12 []); (A "}" 78 261 262 12 12 [])] # "body")]); (B "method_declaration" 79 266 355 14 15 [(B "modifiers" 80 266 330 14 14 [(B "annotation" 81 266 330 14 14 [(A "@" 82 266 267 14 14 []); (B "identifier" 83 267 283 14 14 [] # "name"); (B "annotation_argument_list" 84 283 330 14 14 [(A "(" 85 283 284 14 14 []); (B "string_literal" 86 284 329 14 14 [] # "value"); (A ")" 87 329 330 14 14 [])] # "arguments")])]); (B "void_type" 88 333 337 15 15 [] # "type"); (B "identifier" 89 338 351 15 15 [] # "name"); (B "formal_parameters" 90 351 353 15 15 [(A "(" 91 351 352 15 15 []); (A ")" 92 352 353 15 15 [])] # "parameters"); (B "block" 93 353 355 15 15 [(A "{" 94 353 354 15 15 []); (A "}" 95 354 355 15 15 [])] # "body")]); (B "method_declaration" 96 359 484 17 18 [(B "modifiers" 97 359 436 17 17 [(B "annotation" 98 359 436 17 17 [(A "@" 99 359 360 17 17 []); (B "identifier" 100 360 375 17 17 [] # "name"); (B "annotation_argument_list" 101 375 436 17 17 [(A "(" 102 375 376 17 17 []); (B "annotation_key_value" 103 376 389 17 17 [(B "identifier" 104 376 381 17 17 [] # "key"); (A "=" 105 381 382 17 17 []); (B "string_literal" 106 382 389 17 17 [] # "value")]); (B "annotation_key_value" 107 390 415 17 17 [(B "identifier" 108 390 401 17 17 [] # "key"); (A "=" 109 401 402 17 17 []); (B "string_literal" 110 402 415 17 17 [] # "value")]); (B "annotation_key_value" 111 416 435 17 17 [(B "identifier" 112 416 424 17 17 [] # "key"); (A "=" 113 424 425 17 17 []); (B "string_literal" 114 425 435 17 17 [] # "value")]); (A ")" 115 435 436 17 17 [])] # "arguments")])]); (B "generic_type" 116 439 451 18 18 [(B "type_identifier" 117 439 443 18 18 []); (B "type_arguments" 118 443 451 18 18 [(A "<" 119 443 444 18 18 []); (B "type_identifier" 120 444 450 18 18 []); (A ">" 121 450 451 18 18 [])])] # "type"); (B "identifier" 122 452 467 18 18 [] # "name"); (B "formal_parameters" 123 467 481 18 18 [(A "(" 124 467 468 18 18 []); (B "formal_parameter" 125 468 480 18 18 [(B "generic_type" 126 468 476 18 18 [(B "type_identifier" 127 468 472 18 18 []); (B "type_arguments" 128 472 476 18 18 [(A "<" 129 472 473 18 18 []); (B "type_identifier" 130 473 475 18 18 []); (A ">" 131 475 476 18 18 [])])] # "type"); (B "identifier" 132 477 480 18 18 [] # "name")]); (A ")" 133 480 481 18 18 [])] # "parameters"); (B "block" 134 482 484 18 18 [(A "{" 135 482 483 18 18 []); (A "}" 136 483 484 18 18 [])] # "body")]); (B "method_declaration" 137 488 577 20 21 [(B "modifiers" 138 488 518 20 20 [(B "annotation" 139 488 518 20 20 [(A "@" 140 488 489 20 20 []); (B "identifier" 141 489 504 20 20 [] # "name"); (B "annotation_argument_list" 142 504 518 20 20 [(A "(" 143 504 505 20 20 []); (B "annotation_key_value" 144 505 517 20 20 [(B "identifier" 145 505 512 20 20 [] # "key"); (A "=" 146 512 513 20 20 []); (B "boolean" 147 513 517 20 20 [(A "true" 148 513 517 20 20 [])] # "value")]); (A ")" 149 517 518 20 20 [])] # "arguments")])]); (B "generic_type" 150 521 533 21 21 [(B "type_identifier" 151 521 525 21 21 []); (B "type_arguments" 152 525 533 21 21 [(A "<" 153 525 526 21 21 []); (B "type_identifier" 154 526 532 21 21 []); (A ">" 155 532 533 21 21 [])])] # "type"); (B "identifier" 156 534 560 21 21 [] # "name"); (B "formal_parameters" 157 560 574 21 21 [(A "(" 158 560 561 21 21 []); (B "formal_parameter" 159 561 573 21 21 [(B "generic_type" 160 561 569 21 21 [(B "type_identifier" 161 561 565 21 21 []); (B "type_arguments" 162 565 569 21 21 [(A "<" 163 565 566 21 21 []); (B "type_identifier" 164 566 568 21 21 []); (A ">" 165 568 569 21 21 [])])] # "type"); (B "identifier" 166 570 573 21 21 [] # "name")]); (A ")" 167 573 574 21 21 [])] # "parameters"); (B "block" 168 575 577 21 21 [(A "{" 169 575 576 21 21 []); (A "}" 170 576 577 21 21 [])] # "body")]); (A "}" 171 579 580 23 23 [])] # "body")])]).
Example prettier80_AnnotatedMethod : as_expected prettier80_AnnotatedMethod_source prettier80_AnnotatedMethod_tree (U "class topLevelClass {
  @AuraEnabled
  public String someProperty { get; set; }

  @AuraEnabled(cacheable=true continuation=true)
  public static Account getAccount(Id accountId) {
  }

  @SuppressWarnings('PMD.ApexCRUDViolation')
  void someMethod() {
  }

  @SuppressWarnings('PMD.ApexCRUDViolation, PMD.AnotherViolation')
  void anotherMethod() {
  }

  @InvocableMethod(label='Label' description='Description' category='Category')
  List<String> getAccountNames(List<ID> ids) {
  }

  @InvocableMethod(callout=true)
  List<String> getAccountNamesWithCallout(List<ID> ids) {
  }
}
").
Proof. apply run_test_ok. vm_compute. reflexivity. Qed.

(* tests/prettier80/AnnotatedTrueParamClass.in *)
Definition prettier80_AnnotatedTrueParamClass_source : ustr := U "@IsTest(SeeAllData=true) class AnnotedTrueParamClass
{}

".
Definition prettier80_AnnotatedTrueParamClass_tree : span := (B "parser_output" 1 0 57 0 3 [(B "class_declaration" 2 0 55 0 1 [(B "modifiers" 3 0 24 0 0 [(B "annotation" 4 0 24 0 0 [(A "@" 5 0 1 0 0 []); (B "identifier" 6 1 7 0 0 [] # "name"); (B "annotation_argument_list" 7 7 24 0 0 [(A "(" 8 7 8 0 0 []); (B "annotation_key_value" 9 8 23 0 0 [(B "identifier" 10 8 18 0 0 [] # "key"); (A "=" 11 18 19 0 0 []); (B "boolean" 12 19 23 0 0 [(A "true" 13 19 23 0 0 [])] # "value")]); (A ")" 14 23 24 0 0 [])] # "arguments")])]); (A "class" 15 25 30 0 0 []); (B "identifier" 16 31 52 0 0 [] # "name"); (B "class_body" 17 53 55 1 1 [(A "{" 18 53 54 1 1 []); (A "}" 19 54 55 1 1 [])] # "body")])]).
Example prettier80_AnnotatedTrueParamClass : as_expected prettier80_AnnotatedTrueParamClass_source prettier80_AnnotatedTrueParamClass_tree (U "@IsTest(SeeAllData=true)
class AnnotedTrueParamClass {
}
").
Proof. apply run_test_ok. vm_compute. reflexivity. Qed.

(* tests/prettier80/Annotation1.in *)
Definition prettier80_Annotation1_source : ustr := U "class topLevelClass {
  @AuraEnabled
  public String someProperty {
    get;
    set;
  }

  @AuraEnabled(cacheable=true continuation=true)
  public static Account getAccount(Id accountId) {
  }

  @SuppressWarnings('PMD.ApexCRUDViolation')
  void someMethod(){}

  @SuppressWarnings('PMD.ApexCRUDViolation, PMD.AnotherViolation')
  void anotherMethod(){}

  @InvocableMethod(label='Label' description='Description' category='Category')
  List<String> getAccountNames(List<ID> ids) {}

  @InvocableMethod(callout=true)
  List<String> getAccountNamesWithCallout(List<ID> ids) {}

  @InvocableMethod
  public static List <Results> execute (List<Requests> requestList) {}

  @InvocableVariable(label='Records for Input' description='yourDescription' required=true)
  public List<SObject> inputCollection;
}
".
Definition prettier80_Annotation1_tree : span := (B "parser_output" 1 0 804 0 29 [(B "class_declaration" 2 0 803 0 28 [(A "class" 3 0 5 0 0 []); (B "identifier" 4 6 19 0 0 [] # "name"); (B "class_body" 5 20 803 0 28 [(A "{" 6 20 21 0 0 []); (B "field_declaration" 7 24 89 1 5 [(B "modifiers" 8 24 45 1 2 [(B "annotation" 9 24 36 1 1 [(A "@" 10 24 25 1 1 []); (B "identifier" 11 25 36 1 1 [] # "name")]); (B "modifier" 12 39 45 2 2 [(B "public" 13 39 45 2 2 [(A "public" 14 39 45 2 2 [])])])]); (B "type_identifier" 15 46 52 2 2 [] # "type"); (B "variable_declarator" 16 53 65 2 2 [(B "identifier" 17 53 65 2 2 [] # "name")] # "declarator"); (B "accessor_list" 18 66 89 2 5 [(A "{" 19 66 67 2 2 []); (B "accessor_declaration" 20 72 76 3 3 [(A "get" 21 72 75 3 3 [] # "accessor"); (A ";" 22 75 76 3 3 [])]); (B "accessor_declaration" 23 81 85 4 4 [(A "set" 24 81 84 4 4 [] # "accessor"); (A ";" 25 84 85 4 4 [])]); (A "}" 26 88 89 5 5 [])])]); (B "method_declaration" 27 93 194 7 9 [(B "modifiers" 28 93 155 7 8 [(B "annotation" 29 93 139 7 7 [(A "@" 30 93 94 7 7 []); (B "identifier" 31 94 105 7 7 [] # "name"); (B "annotation_argument_list" 32 105 139 7 7 [(A "(" 33 105 106 7 7 []); (B "annotation_key_value" 34 106 120 7 7 [(B "identifier" 35 106 115 7 7 [] # "key"); (A "=" 36 115 116 7 7 []); (B "boolean" 37 116 120 7 7 [(A "true" 38 116 120 7 7 [])] # "value")]); (B "annotation_key_value" 39 121 138 7 7 [(B "identifier" 40 121 133 7 7 [] # "key"); (A "=" 41 133 134 7 7 []); (B "boolean" 42 134 138 7 7 [(A "true" 43 134 138 7 7 [])] # "value")]); (A ")" 44 138 139 7 7 [])] # "arguments")]); (B "modifier" 45 142 148 8 8 [(B "public" 46 142 148 8 8 [(A "public" 47 142 148 8 8 [])])]); (B "modifier" 48 149 155 8 8 [(B "static" 49 149 155 8 8 [(A "static" 50 149 155 8 8 [])])])]); (B "type_identifier" 51 156 163 8 8 [] # "type"); (B "identifier" 52 164 174 8 8 [] # "name"); (B "formal_parameters" 53 174 188 8 8 [(A "(" 54 174 175 8 8 []); (B "formal_parameter" 55 175 187 8 8 [(B "type_identifier" 56 175 177 8 8 [] # "type"); (B "identifier" 57 178 187 8 8 [] # "name")]); (A ")" 58 187 188 8 8 [])] # "parameters"); (B "block" 59 189 194 8 9 [(A "{" 60 189 190 8 8 []); (A "}" 61 193 194 9 9 [])] # "body")]); (B "method_declaration" 62 198 262 11 12 [(B "modifiers" 63 198 240 11 11 [(B "annotation" 64 198 240 11 11 [(A "@" 65 198 199 11 11 []); (B "identifier" 66 199 215 11 11 [] # "name"); (B "annotation_argument_list" 67 215 240 11 11 [(A "(" 68 215 216 11 11 []); (B "string_literal" 69 216 239 11 11 [] # "value"); (A ")" 70 239 240 11 11 [])] # "arguments")])]); (B "void_type" 71 243 247 12 12 [] # "type"); (B "identifier" 72 248 258 12 12 [] # "name"); (B "formal_parameters" 73 258 260 12 12 [(A "(" 74 258 259 12 12 []); (A ")" 75 259 260 12 12 [])] # "parameters"); (B "block" 76 260 262 12 12 [(A "{" 77 260 261 12 12 []); (A "}" 78 261 262 12 12 [])] # "body")]); (B "method_declaration" 79 266 355 14 15 [(B "modifiers" 80 266 330 14 14 [(B "annotation" 81 266 330 14 14 [(A "@" 82 266 267 14 14 []); (B "identifier" 83 267 283 14 14 [] # "name"); (B "annotation_argument_list" 84 283 330 14 14 [(A "(" 85 283 284 14 14 []); (B "string_literal" 86 284 329 14 14 [] # "value"); (A ")" 87 329 330 14 14 [])] # "arguments")])]); (B "void_type" 88 333 337 15 15 [] # "type"); (B "identifier" 89 338 351 15 15 [] # "name"); (B "formal_parameters" 90 351 353 15 15 [(A "(" 91 351 352 15 15 []); (A ")" 92 352 353 15 15 [])] # "parameters"); (B "block" 93 353 355 15 15 [(A "{" 94 353 354 15 15 []); (A "}" 95 354 355 15 15 [])] # "body")]); (B "method_declaration" 96 359 484 17 18 [(B "modifiers" 97 359 436 17 17 [(B "annotation" 98 359 436 17 17 [(A "@" 99 359 360 17 17 []); (B "identifier" 100 360 375 17 17 [] # "name"); (B "annotation_argument_list" 101 375 436 17 17 [(A "(" 102 375 376 17 17 []); (B "annotation_key_value" 103 376 389 17 17 [(B "identifier" 104 376 381 17 17 [] # "key"); (A "=" 105 381 382 17 17 []); (B "string_literal" 106 382 389 17 17 [] # "value")]); (B "annotation_key_value" 107 390 415 17 17 [(B "identifier" 108 390 401 17 17 [] # "key"); (A "=" 109 401 402 17 17 []); (B "string_literal" 110 402 415 17 17 [] # "value")]); (B "annotation_key_value" 111 416 435 17 17 [(B "identifier" 112 416 424 17 17 [] # "key"); (A "=" 113 424 425 17 17 []); (B "string_literal" 114 425 435 17 17 [] # "value")]); (A ")" 115 435 436 17 17 [])] # "arguments")])]); (B "generic_type" 116 439 451 18 18 [(B "type_identifier" 117 439 443 18 18 []); (B "type_arguments" 118 443 451 18 18 [(A "<" 119 443 444 18 18 []); (B "type_identifier" 120 444 450 18 18 []); (A ">" 121 450 451 18 18 [])])] # "type"); (B "identifier" 122 452 467 18 18 [] # "name"); (B "formal_parameters" 123 467 481 18 18 [(A "(" 124 467 468 18 18 []); (B "formal_parameter" 125 468 480 18 18 [(B "generic_type" 126 468 476 18 18 [(B "type_identifier" 127 468 472 18 18 []); (B "type_arguments" 128 472 476 18 18 [(A "<" 129 472 473 18 18 []); (B "type_identifier" 130 473 475 18 18 []); (A ">" 131 475 476 18 18 [])])] # "type"); (B "identifier" 132 477 480 18 18 [] # "name")]); (A ")" 133 480 481 18 18 [])] # "parameters"); (B "block" 134 482 484 18 18 [(A "{" 135 482 483 18 18 []); (A "}" 136 483 484 18 18 [])] # "body")]); (B "method_declaration" 137 488 577 20 21 [(B "modifiers" 138 488 518 20 20 [(B "annotation" 139 488 518 20 20 [(A "@" 140 488 489 20 20 []); (B "identifier" 141 489 504 20 20 [] # "name"); (B "annotation_argument_list" 142 504 518 20 20 [(A "(" 143 504 505 20 20 []); (B "annotation_key_value" 144 505 517 20 20 [(B "identifier" 145 505 512 20 20 [] # "key"); (A "=" 146 512 513 20 20 []); (B "boolean" 147 513 517 20 20 [(A "true" 148 513 517 20 20 [])] # "value")]); (A ")" 149 517 518 20 20 [])] # "arguments")])]); (B "generic_type" 150 521 533 21 21 [(B "type_identifier" 151 521 525 21 21 []); (B "type_arguments" 152 525 533 21 21 [(A "<" 153 525 526 21 21 []); (B "type_identifier" 154 526 532 21 21 []); (A ">" 155 532 533 21 21 [])])] # "type"); (B "identifier" 156 534 560 21 21 [] # "name"); (B "formal_parameters" 157 560 574 21 21 [(A "(" 158 560 561 21 21 []); (B "formal_parameter" 159 561 573 21 21 [(B "generic_type" 160 561 569 21 21 [(B "type_identifier" 161 561 565 21 21 []); (B "type_arguments" 162 565 569 21 21 [(A "<" 163 565 566 21 21 []); (B "type_identifier" 164 566 568 21 21 []); (A ">" 165 568 569 21 21 [])])] # "type"); (B "identifier" 166 570 573 21 21 [] # "name")]); (A ")" 167 573 574 21 21 [])] # "parameters"); (B "block" 168 575 577 21 21 [(A "{" 169 575 576 21 21 []); (A "}" 170 576 577 21 21 [])] # "body")]); (B "method_declaration" 171 581 668 23 24 [(B "modifiers" 172 581 613 23 24 [(B "annotation" 173 581 597 23 23 [(A "@" 174 581 582 23 23 []); (B "identifier" 175 582 597 23 23 [] # "name")]); (B "modifier" 176 600 606 24 24 [(B "public" 177 600 606 24 24 [(A "public" 178 600 606 24 24 [])])]); (B "modifier" 179 607 613 24 24 [(B "static" 180 607 613 24 24 [(A "static" 181 607 613 24 24 [])])])]); (B "generic_type" 182 614 628 24 24 [(B "type_identifier" 183 614 618 24 24 []); (B "type_arguments" 184 619 628 24 24 [(A "<" 185 619 620 24 24 []); (B "type_identifier" 186 620 627 24 24 []); (A ">" 187 627 628 24 24 [])])] # "type"); (B "identifier" 188 629 636 24 24 [] # "name"); (B "formal_parameters" 189 637 665 24 24 [(A "(" 190 637 638 24 24 []); (B "formal_parameter" 191 638 664 24 24 [(B "generic_type" 192 638 652 24 24 [(B "type_identifier" 193 638 642 24 24 []); (B "type_arguments" 194 642 652 24 24 [(A "<" 195 642 643 24 24 []); (B "type_identifier" 196 643 651 24 24 []); (A ">" 197 651 652 24 24 [])])] # "type"); (B "identifier" 198 653 664 24 24 [] # "name")]); (A ")" 199 664 665 24 24 [])] # "parameters"); (B "block" 200 666 668 24 24 [(A "{" 201 666 667 24 24 []); (A "}" 202 667 668 24 24 [])] # "body")]); (B "field_declaration" 203 672 801 26 27 [(B "modifiers" 204 672 770 26 27 [(B "annotation" 205 672 761 26 26 [(A "@" 206 672 673 26 26 []); (B "identifier" 207 673 690 26 26 [] # "name"); (B "annotation_argument_list" 208 690 761 26 26 [(A "(" 209 690 691 26 26 []); (B "annotation_key_value" 210 691 716 26 26 [(B "identifier" 211 691 696 26 26 [] # "key"); (A "=" 212 696 697 26 26 []); (B "string_literal" 213 697 716 26 26 [] # "value")]); (B "annotation_key_value" 214 717 746 26 26 [(B "identifier" 215 717 728 26 26 [] # "key"); (A "=" 216 728 729 26 26 []); (B "string_literal" 217 729 746 26 26 [] # "value")]); (B "annotation_key_value" 218 747 760 26 26 [(B "identifier" 219 747 755 26 26 [] # "key"); (A "=" 220 755 756 26 26 []); (B "boolean" 221 756 760 26 26 [(A "true" 222 756 760 26 26 [])] # "value")]); (A ")" 223 760 761 26 26 [])] # "arguments")]); (B "modifier" 224 764 770 27 27 [(B "public" 225 764 770 27 27 [(A "public" 226 764 770 27 27 [])])])]); (B "generic_type" 227 771 784 27 27 [(B "type_identifier" 228 771 775 27 27 []); (B "type_arguments" 229 775 784 27 27 [(A "<" 230 775 776 27 27 []); (B "type_identifier" 231 776 783 27 27 []); (A ">" 232 783 784 27 27 [])])] # "type"); (B "variable_declarator" 233 785 800 27 27 [(B "identifier" 234 785 800 27 27 [] # "name")] # "declarator"); (A ";" 235 800 801 27 27 [])]); (A "}" 236 802 803 28 28 [])] # "body")])]).
Example prettier80_Annotation1 : as_expected prettier80_Annotation1_source prettier80_Annotation1_tree (U "class topLevelClass {
  @AuraEnabled
  public String someProperty { get; set; }

  @AuraEnabled(cacheable=true continuation=true)
  public static Account getAccount(Id accountId) {
  }

  @SuppressWarnings('PMD.ApexCRUDViolation')
  void someMethod() {
  }

  @SuppressWarnings('PMD.ApexCRUDViolation, PMD.AnotherViolation')
  void anotherMethod() {
  }

  @InvocableMethod(label='Label' description='Description' category='Category')
  List<String> getAccountNames(List<ID> ids) {
  }

  @InvocableMethod(callout=true)
  List<String> getAccountNamesWithCallout(List<ID> ids) {
  }

  @InvocableMethod
  public static List<Results> execute(List<Requests> requestList) {
  }

  @InvocableVariable(
    label='Records for Input'
    description='yourDescription'
    required=true
  )
  public List<SObject> inputCollection;
}
").
Proof. apply run_test_ok. vm_compute. reflexivity. Qed.

(* tests/prettier80/BlockMember.in *)
Definition prettier80_BlockMember_source : ustr := U "class BlockMember {
  String fieldMemberOne;
  String anotherFieldMember = 'Hello';
  private transient String anotherFieldMemberTwo;
  static string anotherFieldMemberThree;

  String propertyMemberWithGetSet { get; set; }

  void method() {
    System.debug('method');
  }

  class StatementBlockMember {
    {
      System.debug('Statement Block Member');
    }
  }
  class StaticStatementBlockMember {
    static {
      System.debug('Static Statement Block Member');
    }
  }
  interface InnerInterface {
    void interfaceMethod();
  }
}

".
Definition prettier80_BlockMember_tree : span := (B "parser_output" 1 0 546 0 27 [(B "class_declaration" 2 0 544 0 25 [(A "class" 3 0 5 0 0 []); (B "identifier" 4 6 17 0 0 [] # "name"); (B "class_body" 5 18 544 0 25 [(A "{" 6 18 19 0 0 []); (B "field_declaration" 7 22 44 1 1 [(B "type_identifier" 8 22 28 1 1 [] # "type"); (B "variable_declarator" 9 29 43 1 1 [(B "identifier" 10 29 43 1 1 [] # "name")] # "declarator"); (A ";" 11 43 44 1 1 [])]); (B "field_declaration" 12 47 83 2 2 [(B "type_identifier" 13 47 53 2 2 [] # "type"); (B "variable_declarator" 14 54 82 2 2 [(B "identifier" 15 54 72 2 2 [] # "name"); (B "assignment_operator" 16 73 74 2 2 [(A "=" 17 73 74 2 2 [])]); (B "string_literal" 18 75 82 2 2 [] # "value")] # "declarator"); (A ";" 19 82 83 2 2 [])]); (B "field_declaration" 20 86 133 3 3 [(B "modifiers" 21 86 103 3 3 [(B "modifier" 22 86 93 3 3 [(B "private" 23 86 93 3 3 [(A "private" 24 86 93 3 3 [])])]); (B "modifier" 25 94 103 3 3 [(B "transient" 26 94 103 3 3 [(A "transient" 27 94 103 3 3 [])])])]); (B "type_identifier" 28 104 110 3 3 [] # "type"); (B "variable_declarator" 29 111 132 3 3 [(B "identifier" 30 111 132 3 3 [] # "name")] # "declarator"); (A ";" 31 132 133 3 3 [])]); (B "field_declaration" 32 136 174 4 4 [(B "modifiers" 33 136 142 4 4 [(B "modifier" 34 136 142 4 4 [(B "static" 35 136 142 4 4 [(A "static" 36 136 142 4 4 [])])])]); (B "type_identifier" 37 143 149 4 4 [] # "type"); (B "variable_declarator" 38 150 173 4 4 [(B "identifier" 39 150 173 4 4 [] # "name")] # "declarator"); (A ";" 40 173 174 4 4 [])]); (B "field_declaration" 41 178 223 6 6 [(B "type_identifier" 42 178 184 6 6 [] # "type"); (B "variable_declarator" 43 185 209 6 6 [(B "identifier" 44 185 209 6 6 [] # "name")] # "declarator"); (B "accessor_list" 45 210 223 6 6 [(A "{" 46 210 211 6 6 []); (B "accessor_declaration" 47 212 216 6 6 [(A "get" 48 212 215 6 6 [] # "accessor"); (A ";" 49 215 216 6 6 [])]); (B "accessor_declaration" 50 217 221 6 6 [(A "set" 51 217 220 6 6 [] # "accessor"); (A ";" 52 220 221 6 6 [])]); (A "}" 53 222 223 6 6 [])])]); (B "method_declaration" 54 227 274 8 10 [(B "void_type" 55 227 231 8 8 [] # "type"); (B "identifier" 56 232 238 8 8 [] # "name"); (B "formal_parameters" 57 238 240 8 8 [(A "(" 58 238 239 8 8 []); (A ")" 59 239 240 8 8 [])] # "parameters"); (B "block" 60 241 274 8 10 [(A "{" 61 241 242 8 8 []); (B "expression_statement" 62 247 270 9 9 [(B "method_invocation" 63 247 269 9 9 [(B "identifier" 64 247 253 9 9 [] # "object"); (A "." 65 253 254 9 9 []); (B "identifier" 66 254 259 9 9 [] # "name"); (B "argument_list" 67 259 269 9 9 [(A "(" 68 259 260 9 9 []); (B "string_literal" 69 260 268 9 9 []); (A ")" 70 268 269 9 9 [])] # "arguments")]); (A ";" 71 269 270 9 9 [])]); (A "}" 72 273 274 10 10 [])] # "body")]); (B "class_declaration" 73 278 368 12 16 [(A "class" 74 278 283 12 12 []); (B "identifier" 75 284 304 12 12 [] # "name"); (B "class_body" 76 305 368 12 16 [(A "{" 77 305 306 12 12 []); (B "block" 78 311 364 13 15 [(A "{" 79 311 312 13 13 []); (B "expression_statement" 80 319 358 14 14 [(B "method_invocation" 81 319 357 14 14 [(B "identifier" 82 319 325 14 14 [] # "object"); (A "." 83 325 326 14 14 []); (B "identifier" 84 326 331 14 14 [] # "name"); (B "argument_list" 85 331 357 14 14 [(A "(" 86 331 332 14 14 []); (B "string_literal" 87 332 356 14 14 []); (A ")" 88 356 357 14 14 [])] # "arguments")]); (A ";" 89 357 358 14 14 [])]); (A "}" 90 363 364 15 15 [])]); (A "}" 91 367 368 16 16 [])] # "body")]); (B "class_declaration" 92 371 481 17 21 [(A "class" 93 371 376 17 17 []); (B "identifier" 94 377 403 17 17 [] # "name"); (B "class_body" 95 404 481 17 21 [(A "{" 96 404 405 17 17 []); (B "static_initializer" 97 410 477 18 20 [(A "static" 98 410 416 18 18 []); (B "block" 99 417 477 18 20 [(A "{" 100 417 418 18 18 []); (B "expression_statement" 101 425 471 19 19 [(B "method_invocation" 102 425 470 19 19 [(B "identifier" 103 425 431 19 19 [] # "object"); (A "." 104 431 432 19 19 []); (B "identifier" 105 432 437 19 19 [] # "name"); (B "argument_list" 106 437 470 19 19 [(A "(" 107 437 438 19 19 []); (B "string_literal" 108 438 469 19 19 []); (A ")" 109 469 470 19 19 [])] # "arguments")]); (A ";" 110 470 471 19 19 [])]); (A "}" 111 476 477 20 20 [])])]); (A "}" 112 480 481 21 21 [])] # "body")]); (B "interface_declaration" 113 484 542 22 24 [(A "interface" 114 484 493 22 22 []); (B "identifier" 115 494 508 22 22 [] # "name"); (B "interface_body" 116 509 542 22 24 [(A "{" 117 509 510 22 22 []); (B "method_declaration" 118 515 538 23 23 [(B "void_type" 119 515 519 23 23 [] # "type"); (B "identifier" 120 520 535 23 23 [] # "name"); (B "formal_parameters" 121 535 537 23 23 [(A "(" 122 535 536 23 23 []); (A ")" 123 536 537 23 23 [])] # "parameters"); (A ";" 124 537 538 23 23 [])]); (A "}" 125 541 542 24 24 [])] # "body")]); (A "}" 126 543 544 25 25 [])] # "body")])]).
Example prettier80_BlockMember : as_expected prettier80_BlockMember_source prettier80_BlockMember_tree (U "class BlockMember {
  String fieldMemberOne;
  String anotherFieldMember = 'Hello';
  private transient String anotherFieldMemberTwo;
  static string anotherFieldMemberThree;

  String propertyMemberWithGetSet { get; set; }

  void method() {
    System.debug('method');
  }

  class StatementBlockMember {
    {
      System.debug('Statement Block Member');
    }
  }
  class StaticStatementBlockMember {
    static {
      System.debug('Static Statement Block Member');
    }
  }
  interface InnerInterface {
    void interfaceMethod();
  }
}
").
Proof. apply run_test_ok. vm_compute. reflexivity. Qed.

(* tests/prettier80/ClassInterface1.in *)
Definition prettier80_ClassInterface1_source : ustr := U "global class Me implements namespace.InterfaceName {
}
".
Definition prettier80_ClassInterface1_tree : span := (B "parser_output" 1 0 55 0 2 [(B "class_declaration" 2 0 54 0 1 [(B "modifiers" 3 0 6 0 0 [(B "modifier" 4 0 6 0 0 [(B "global" 5 0 6 0 0 [(A "global" 6 0 6 0 0 [])])])]); (A "class" 7 7 12 0 0 []); (B "identifier" 8 13 15 0 0 [] # "name"); (B "interfaces" 9 16 50 0 0 [(A "implements" 10 16 26 0 0 []); (B "type_list" 11 27 50 0 0 [(B "scoped_type_identifier" 12 27 50 0 0 [(B "type_identifier" 13 27 36 0 0 []); (A "." 14 36 37 0 0 []); (B "type_identifier" 15 37 50 0 0 [])])])]); (B "class_body" 16 51 54 0 1 [(A "{" 17 51 52 0 0 []); (A "}" 18 53 54 1 1 [])] # "body")])]).
Example prettier80_ClassInterface1 : as_expected prettier80_ClassInterface1_source prettier80_ClassInterface1_tree (U "global class Me implements namespace.InterfaceName {
}
").
Proof. apply run_test_ok. vm_compute. reflexivity. Qed.

(* tests/prettier80/ClassInterface2.in *)
Definition prettier80_ClassInterface2_source : ustr := U "public with sharing class Me implements Database.Batchable<SObject> {}
".
Definition prettier80_ClassInterface2_tree : span := (B "parser_output" 1 0 71 0 1 [(B "class_declaration" 2 0 70 0 0 [(B "modifiers" 3 0 19 0 0 [(B "modifier" 4 0 6 0 0 [(B "public" 5 0 6 0 0 [(A "public" 6 0 6 0 0 [])])]); (B "modifier" 7 7 19 0 0 [(B "with_sharing" 8 7 19 0 0 [(A "with" 9 7 11 0 0 []); (A "sharing" 10 12 19 0 0 [])])])]); (A "class" 11 20 25 0 0 []); (B "identifier" 12 26 28 0 0 [] # "name"); (B "interfaces" 13 29 67 0 0 [(A "implements" 14 29 39 0 0 []); (B "type_list" 15 40 67 0 0 [(B "generic_type" 16 40 67 0 0 [(B "scoped_type_identifier" 17 40 58 0 0 [(B "type_identifier" 18 40 48 0 0 []); (A "." 19 48 49 0 0 []); (B "type_identifier" 20 49 58 0 0 [])]); (B "type_arguments" 21 58 67 0 0 [(A "<" 22 58 59 0 0 []); (B "type_identifier" 23 59 66 0 0 []); (A ">" 24 66 67 0 0 [])])])])]); (B "class_body" 25 68 70 0 0 [(A "{" 26 68 69 0 0 []); (A "}" 27 69 70 0 0 [])] # "body")])]).
Example prettier80_ClassInterface2 : as_expected prettier80_ClassInterface2_source prettier80_ClassInterface2_tree (U "public with sharing class Me implements Database.Batchable<SObject> {
}
").
Proof. apply run_test_ok. vm_compute. reflexivity. Qed.

(* tests/prettier80/EmptyBlockStatement.in *)
Definition prettier80_EmptyBlockStatement_source : ustr := U "class EmptyBlockStatement {
  public EmptyBlockStatement() {

  }

  public static void emptyForLoop() {
    for (Integer i = 1; i ++; i < 5) {

    }
  }

  public static void emptyIfElse() {
    if (1 == 1) {

    } else {

    }
  }
}
".
Definition prettier80_EmptyBlockStatement_tree : span := (B "parser_output" 1 0 238 0 19 [(B "class_declaration" 2 0 237 0 18 [(A "class" 3 0 5 0 0 []); (B "identifier" 4 6 25 0 0 [] # "name"); (B "class_body" 5 26 237 0 18 [(A "{" 6 26 27 0 0 []); (B "constructor_declaration" 7 30 65 1 3 [(B "modifiers" 8 30 36 1 1 [(B "modifier" 9 30 36 1 1 [(B "public" 10 30 36 1 1 [(A "public" 11 30 36 1 1 [])])])]); (B "identifier" 12 37 56 1 1 [] # "name"); (B "formal_parameters" 13 56 58 1 1 [(A "(" 14 56 57 1 1 []); (A ")" 15 57 58 1 1 [])] # "parameters"); (B "constructor_body" 16 59 65 1 3 [(A "{" 17 59 60 1 1 []); (A "}" 18 64 65 3 3 [])] # "body")]); (B "method_declaration" 19 69 154 5 9 [(B "modifiers" 20 69 82 5 5 [(B "modifier" 21 69 75 5 5 [(B "public" 22 69 75 5 5 [(A "public" 23 69 75 5 5 [])])]); (B "modifier" 24 76 82 5 5 [(B "static" 25 76 82 5 5 [(A "static" 26 76 82 5 5 [])])])]); (B "void_type" 27 83 87 5 5 [] # "type"); (B "identifier" 28 88 100 5 5 [] # "name"); (B "formal_parameters" 29 100 102 5 5 [(A "(" 30 100 101 5 5 []); (A ")" 31 101 102 5 5 [])] # "parameters"); (B "block" 32 103 154 5 9 [(A "{" 33 103 104 5 5 []); (B "for_statement" 34 109 150 6 8 [(A "for" 35 109 112 6 6 []); (A "(" 36 113 114 6 6 []); (B "local_variable_declaration" 37 114 128 6 6 [(B "type_identifier" 38 114 121 6 6 [] # "type"); (B "variable_declarator" 39 122 127 6 6 [(B "identifier" 40 122 123 6 6 [] # "name"); (B "assignment_operator" 41 124 125 6 6 [(A "=" 42 124 125 6 6 [])]); (B "int" 43 126 127 6 6 [] # "value")] # "declarator"); (A ";" 44 127 128 6 6 [])] # "init"); (B "update_expression" 45 129 133 6 6 [(B "identifier" 46 129 130 6 6 [] # "operand"); (A "++" 47 131 133 6 6 [] # "operator")] # "condition"); (A ";" 48 133 134 6 6 []); (B "binary_expression" 49 135 140 6 6 [(B "identifier" 50 135 136 6 6 [] # "left"); (A "<" 51 137 138 6 6 [] # "operator"); (B "int" 52 139 140 6 6 [] # "right")] # "update"); (A ")" 53 140 141 6 6 []); (B "block" 54 142 150 6 8 [(A "{" 55 142 143 6 6 []); (A "}" 56 149 150 8 8 [])] # "body")]); (A "}" 57 153 154 9 9 [])] # "body")]); (B "method_declaration" 58 158 235 11 17 [(B "modifiers" 59 158 171 11 11 [(B "modifier" 60 158 164 11 11 [(B "public" 61 158 164 11 11 [(A "public" 62 158 164 11 11 [])])]); (B "modifier" 63 165 171 11 11 [(B "static" 64 165 171 11 11 [(A "static" 65 165 171 11 11 [])])])]); (B "void_type" 66 172 176 11 11 [] # "type"); (B "identifier" 67 177 188 11 11 [] # "name"); (B "formal_parameters" 68 188 190 11 11 [(A "(" 69 188 189 11 11 []); (A ")" 70 189 190 11 11 [])] # "parameters"); (B "block" 71 191 235 11 17 [(A "{" 72 191 192 11 11 []); (B "if_statement" 73 197 231 12 16 [(A "if" 74 197 199 12 12 []); (B "parenthesized_expression" 75 200 208 12 12 [(A "(" 76 200 201 12 12 []); (B "binary_expression" 77 201 207 12 12 [(B "int" 78 201 202 12 12 [] # "left"); (A "==" 79 203 205 12 12 [] # "operator"); (B "int" 80 206 207 12 12 [] # "right")]); (A ")" 81 207 208 12 12 [])] # "condition"); (B "block" 82 209 217 12 14 [(A "{" 83 209 210 12 12 []); (A "}" 84 216 217 14 14 [])] # "consequence"); (A "else" 85 218 222 14 14 []); (B "block" 86 223 231 14 16 [(A "{" 87 223 224 14 14 []); (A "}" 88 230 231 16 16 [])] # "alternative")]); (A "}" 89 234 235 17 17 [])] # "body")]); (A "}" 90 236 237 18 18 [])] # "body")])]).
Example prettier80_EmptyBlockStatement : as_expected prettier80_EmptyBlockStatement_source prettier80_EmptyBlockStatement_tree (U "class EmptyBlockStatement {
  public EmptyBlockStatement() {
  }

  public static void emptyForLoop() {
    for (Integer i = 1; i++; i < 5) {
    }
  }

  public static void emptyIfElse() {
    if (1 == 1) {
    } else {
    }
  }
}
").
Proof. apply run_test_ok. vm_compute. reflexivity. Qed.

(* tests/prettier80/EmptyBlockStatement2.in *)
Definition prettier80_EmptyBlockStatement2_source : ustr := U "class Ea {
  public Ea() {
  }

  public static void emp() {
  }
}
".
Definition prettier80_EmptyBlockStatement2_tree : span := (B "parser_output" 1 0 67 0 7 [(B "class_declaration" 2 0 66 0 6 [(A "class" 3 0 5 0 0 []); (B "identifier" 4 6 8 0 0 [] # "name"); (B "class_body" 5 9 66 0 6 [(A "{" 6 9 10 0 0 []); (B "constructor_declaration" 7 13 30 1 2 [(B "modifiers" 8 13 19 1 1 [(B "modifier" 9 13 19 1 1 [(B "public" 10 13 19 1 1 [(A "public" 11 13 19 1 1 [])])])]); (B "identifier" 12 20 22 1 1 [] # "name"); (B "formal_parameters" 13 22 24 1 1 [(A "(" 14 22 23 1 1 []); (A ")" 15 23 24 1 1 [])] # "parameters"); (B "constructor_body" 16 25 30 1 2 [(A "{" 17 25 26 1 1 []); (A "}" 18 29 30 2 2 [])] # "body")]); (B "method_declaration" 19 34 64 4 5 [(B "modifiers" 20 34 47 4 4 [(B "modifier" 21 34 40 4 4 [(B "public" 22 34 40 4 4 [(A "public" 23 34 40 4 4 [])])]); (B "modifier" 24 41 47 4 4 [(B "static" 25 41 47 4 4 [(A "static" 26 41 47 4 4 [])])])]); (B "void_type" 27 48 52 4 4 [] # "type"); (B "identifier" 28 53 56 4 4 [] # "name"); (B "formal_parameters" 29 56 58 4 4 [(A "(" 30 56 57 4 4 []); (A ")" 31 57 58 4 4 [])] # "parameters"); (B "block" 32 59 64 4 5 [(A "{" 33 59 60 4 4 []); (A "}" 34 63 64 5 5 [])] # "body")]); (A "}" 35 65 66 6 6 [])] # "body")])]).
Example prettier80_EmptyBlockStatement2 : as_expected prettier80_EmptyBlockStatement2_source prettier80_EmptyBlockStatement2_tree (U "class Ea {
  public Ea() {
  }

  public static void emp() {
  }
}
").
Proof. apply run_test_ok. vm_compute. reflexivity. Qed.

(* tests/prettier80/EmptyEnum.in *)
Definition prettier80_EmptyEnum_source : ustr := U "enum Season {}
".
Definition prettier80_EmptyEnum_tree : span := (B "parser_output" 1 0 15 0 1 [(B "enum_declaration" 2 0 14 0 0 [(A "enum" 3 0 4 0 0 []); (B "identifier" 4 5 11 0 0 [] # "name"); (B "enum_body" 5 12 14 0 0 [(A "{" 6 12 13 0 0 []); (A "}" 7 13 14 0 0 [])] # "body")])]).
Example prettier80_EmptyEnum : as_expected prettier80_EmptyEnum_source prettier80_EmptyEnum_tree (U "enum Season {
}
").
Proof. apply run_test_ok. vm_compute. reflexivity. Qed.

(* tests/prettier80/EmptyInterface.in *)
Definition prettier80_EmptyInterface_source : ustr := U "interface EmptyInterface {}
".
Definition prettier80_EmptyInterface_tree : span := (B "parser_output" 1 0 28 0 1 [(B "interface_declaration" 2 0 27 0 0 [(A "interface" 3 0 9 0 0 []); (B "identifier" 4 10 24 0 0 [] # "name"); (B "interface_body" 5 25 27 0 0 [(A "{" 6 25 26 0 0 []); (A "}" 7 26 27 0 0 [])] # "body")])]).
Example prettier80_EmptyInterface : as_expected prettier80_EmptyInterface_source prettier80_EmptyInterface_tree (U "interface EmptyInterface {
}
").
Proof. apply run_test_ok. vm_compute. reflexivity. Qed.

(* tests/prettier80/EmptyLine.in *)
Definition prettier80_EmptyLine_source : ustr := U "class EmptyLine {
  String a;

  String b;



  enum NUMBER {

  }
  void blockStatement() {

  }

  void variableDeclarations() {
    Integer a = 1;


    Integer b
      = 1 + 1,
      c = 2 + 2
      ;

    Integer d = 1,
      e = 2;

    Integer a;


    Integer g = 1; Integer e = 2; Integer h = 4;

    Integer y, z;
    Integer x = 1; y = 2; z = 3;

    Integer x =
      1; y = 2; z = 3;

    Integer i = 1, k = 2, l = 1;

    Integer f = 1;

  }


  void expressionStatement() {
    i ++
      ;


    i --;


  }
  void blockStatementWithoutEmptyLine() {}
  void dmlInsert() {
    insert a;

    insert a
      ;

    insert b;
    insert c;


  }

  void dmlUpdate() {
    update a;

    update a
      ;

    update b;
    update c;


  }

  void dmlUpsert() {
    upsert a;

    upsert a
      ;

    upsert b;
    upsert c;


  }

  void dmlDelete() {
    delete a;

    delete a
      ;

    delete b;
    delete c;


  }

  void dmlUndelete() {
    undelete a;

    undelete a
      ;

    undelete b;
    undelete c;


  }

  void dmlMerge() {
    merge a b;

    merge
      a

      b
      ;

    merge a b;
    merge a b;


  }

  void returnStatement() {
    return a;


    return a
      ;

    return a;
    return a;


  }

  void throwStatement() {
    throw a;

    throw a
      ;

    throw a;
    throw a;


  }

  void breakStatement() {
    while (true) {
      break;

      break
        ;

      break;
      break;


    }
  }

  void continueStatement() {
    while (true) {
      continue;

      continue
        ;

      continue;
      continue;


    }
  }

  void ifElseBlock() {
    Integer a = 1;
    if (a == 1) {} else if (a == 2) {} else {}


    if (a == 1) {

    } else if (a == 2) {

    } else {

    }

    if (a == 1) {
    } else if (a == 2) {
    } else {
    }


    if (a == 1) {

    }


  }

  void tryCatchBlock() {
    try {

    } catch (Exception e) {

    } finally {

    }

    try {} catch (Exception e) {} finally {}

    try {} catch (Exception e) {} finally {}
  }

  void forLoop() {
    for (String a: listA) {

    }

    for (String a: listA) {}

    for (String a: listA) {}

  }

  void whileLoop() {
    while (i < 5) {

    }

    while (i < 5) {}

    while (i < 5) {}


  }

  void doLoop() {
    do {

    } while (i < 5);


    do {

    }

    while (i < 5);

    do {} while (i < 5);


  }

  class ClassDeclaration {
    class InnerClassMember {}

    class InnerClassMemberTwo {}

  }

  class InnerClassTwo {
    interface InnerInterfaceMember {}

    interface InnerInterfaceMemberTwo {}

  }

  class InnerClassThree {
    enum InnerEnumMember {}

    enum InnerEnumMemberTwo {}

  }

  class InnerClassFour {
    String propertyMember { get; set; }

    String propertyMemberTwo { get; set; }

  }

  class InnerClassFive {
    String fieldMember;

    String fieldMemberTwo;

  }

  interface InterfaceDeclaration {}

  void switchStatement() {
    switch on i {
      when 1 {
        System.debug('One');
      }
    }

    switch on i {
      when 1 {

      }
    }

    switch on i {
      when 1 {

      }
    }


  }


  void methodTwo(String testString);

}
".
Definition prettier80_EmptyLine_tree : span := (B "parser_output" 1 0 3162 0 325 [(B "class_declaration" 2 0 3161 0 324 [(A "class" 3 0 5 0 0 []); (B "identifier" 4 6 15 0 0 [] # "name"); (B "class_body" 5 16 3161 0 324 [(A "{" 6 16 17 0 0 []); (B "field_declaration" 7 20 29 1 1 [(B "type_identifier" 8 20 26 1 1 [] # "type"); (B "variable_declarator" 9 27 28 1 1 [(B "identifier" 10 27 28 1 1 [] # "name")] # "declarator"); (A ";" 11 28 29 1 1 [])]); (B "field_declaration" 12 33 42 3 3 [(B "type_identifier" 13 33 39 3 3 [] # "type"); (B "variable_declarator" 14 40 41 3 3 [(B "identifier" 15 40 41 3 3 [] # "name")] # "declarator"); (A ";" 16 41 42 3 3 [])]); (B "enum_declaration" 17 48 66 7 9 [(A "enum" 18 48 52 7 7 []); (B "identifier" 19 53 59 7 7 [] # "name"); (B "enum_body" 20 60 66 7 9 [(A "{" 21 60 61 7 7 []); (A "}" 22 65 66 9 9 [])] # "body")]); (B "method_declaration" 23 69 97 10 12 [(B "void_type" 24 69 73 10 10 [] # "type"); (B "identifier" 25 74 88 10 10 [] # "name"); (B "formal_parameters" 26 88 90 10 10 [(A "(" 27 88 89 10 10 []); (A ")" 28 89 90 10 10 [])] # "parameters"); (B "block" 29 91 97 10 12 [(A "{" 30 91 92 10 10 []); (A "}" 31 96 97 12 12 [])] # "body")]); (B "method_declaration" 32 101 455 14 41 [(B "void_type" 33 101 105 14 14 [] # "type"); (B "identifier" 34 106 126 14 14 [] # "name"); (B "formal_parameters" 35 126 128 14 14 [(A "(" 36 126 127 14 14 []); (A ")" 37 127 128 14 14 [])] # "parameters"); (B "block" 38 129 455 14 41 [(A "{" 39 129 130 14 14 []); (B "local_variable_declaration" 40 135 149 15 15 [(B "type_identifier" 41 135 142 15 15 [] # "type"); (B "variable_declarator" 42 143 148 15 15 [(B "identifier" 43 143 144 15 15 [] # "name"); (B "assignment_operator" 44 145 146 15 15 [(A "=" 45 145 146 15 15 [])]); (B "int" 46 147 148 15 15 [] # "value")] # "declarator"); (A ";" 47 148 149 15 15 [])]); (B "local_variable_declaration" 48 156 204 18 21 [(B "type_identifier" 49 156 163 18 18 [] # "type"); (B "variable_declarator" 50 164 179 18 19 [(B "identifier" 51 164 165 18 18 [] # "name"); (B "assignment_operator" 52 172 173 19 19 [(A "=" 53 172 173 19 19 [])]); (B "binary_expression" 54 174 179 19 19 [(B "int" 55 174 175 19 19 [] # "left"); (A "+" 56 176 177 19 19 [] # "operator"); (B "int" 57 178 179 19 19 [] # "right")] # "value")] # "declarator"); (A "," 58 179 180 19 19 []); (B "variable_declarator" 59 187 196 20 20 [(B "identifier" 60 187 188 20 20 [] # "name"); (B "assignment_operator" 61 189 190 20 20 [(A "=" 62 189 190 20 20 [])]); (B "binary_expression" 63 191 196 20 20 [(B "int" 64 191 192 20 20 [] # "left"); (A "+" 65 193 194 20 20 [] # "operator"); (B "int" 66 195 196 20 20 [] # "right")] # "value")] # "declarator"); (A ";" 67 203 204 21 21 [])]); (B "local_variable_declaration" 68 210 237 23 24 [(B "type_identifier" 69 210 217 23 23 [] # "type"); (B "variable_declarator" 70 218 223 23 23 [(B "identifier" 71 218 219 23 23 [] # "name"); (B "assignment_operator" 72 220 221 23 23 [(A "=" 73 220 221 23 23 [])]); (B "int" 74 222 223 23 23 [] # "value")] # "declarator"); (A "," 75 223 224 23 23 []); (B "variable_declarator" 76 231 236 24 24 [(B "identifier" 77 231 232 24 24 [] # "name"); (B "assignment_operator" 78 233 234 24 24 [(A "=" 79 233 234 24 24 [])]); (B "int" 80 235 236 24 24 [] # "value")] # "declarator"); (A ";" 81 236 237 24 24 [])]); (B "local_variable_declaration" 82 243 253 26 26 [(B "type_identifier" 83 243 250 26 26 [] # "type"); (B "variable_declarator" 84 251 252 26 26 [(B "identifier" 85 251 252 26 26 [] # "name")] # "declarator"); (A ";" 86 252 253 26 26 [])]); (B "local_variable_declaration" 87 260 274 29 29 [(B "type_identifier" 88 260 267 29 29 [] # "type"); (B "variable_declarator" 89 268 273 29 29 [(B "identifier" 90 268 269 29 29 [] # "name"); (B "assignment_operator" 91 270 271 29 29 [(A "=" 92 270 271 29 29 [])]); (B "int" 93 272 273 29 29 [] # "value")] # "declarator"); (A ";" 94 273 274 29 29 [])]); (B "local_variable_declaration" 95 275 289 29 29 [(B "type_identifier" 96 275 282 29 29 [] # "type"); (B "variable_declarator" 97 283 288 29 29 [(B "identifier" 98 283 284 29 29 [] # "name"); (B "assignment_operator" 99 285 286 29 29 [(A "=" 100 285 286 29 29 [])]); (B "int" 101 287 288 29 29 [] # "value")] # "declarator"); (A ";" 102 288 289 29 29 [])]); (B "local_variable_declaration" 103 290 304 29 29 [(B "type_identifier" 104 290 297 29 29 [] # "type"); (B "variable_declarator" 105 298 303 29 29 [(B "identifier" 106 298 299 29 29 [] # "name"); (B "assignment_operator" 107 300 301 29 29 [(A "=" 108 300 301 29 29 [])]); (B "int" 109 302 303 29 29 [] # "value")] # "declarator"); (A ";" 110 303 304 29 29 [])]); (B "local_variable_declaration" 111 310 323 31 31 [(B "type_identifier" 112 310 317 31 31 [] # "type"); (B "variable_declarator" 113 318 319 31 31 [(B "identifier" 114 318 319 31 31 [] # "name")] # "declarator"); (A "," 115 319 320 31 31 []); (B "variable_declarator" 116 321 322 31 31 [(B "identifier" 117 321 322 31 31 [] # "name")] # "declarator"); (A ";" 118 322 323 31 31 [])]); (B "local_variable_declaration" 119 328 342 32 32 [(B "type_identifier" 120 328 335 32 32 [] # "type"); (B "variable_declarator" 121 336 341 32 32 [(B "identifier" 122 336 337 32 32 [] # "name"); (B "assignment_operator" 123 338 339 32 32 [(A "=" 124 338 339 32 32 [])]); (B "int" 125 340 341 32 32 [] # "value")] # "declarator"); (A ";" 126 341 342 32 32 [])]); (B "expression_statement" 127 343 349 32 32 [(B "assignment_expression" 128 343 348 32 32 [(B "identifier" 129 343 344 32 32 [] # "left"); (B "assignment_operator" 130 345 346 32 32 [(A "=" 131 345 346 32 32 [])] # "operator"); (B "int" 132 347 348 32 32 [] # "right")]); (A ";" 133 348 349 32 32 [])]); (B "expression_statement" 134 350 356 32 32 [(B "assignment_expression" 135 350 355 32 32 [(B "identifier" 136 350 351 32 32 [] # "left"); (B "assignment_operator" 137 352 353 32 32 [(A "=" 138 352 353 32 32 [])] # "operator"); (B "int" 139 354 355 32 32 [] # "right")]); (A ";" 140 355 356 32 32 [])]); (B "local_variable_declaration" 141 362 382 34 35 [(B "type_identifier" 142 362 369 34 34 [] # "type"); (B "variable_declarator" 143 370 381 34 35 [(B "identifier" 144 370 371 34 34 [] # "name"); (B "assignment_operator" 145 372 373 34 34 [(A "=" 146 372 373 34 34 [])]); (B "int" 147 380 381 35 35 [] # "value")] # "declarator"); (A ";" 148 381 382 35 35 [])]); (B "expression_statement" 149 383 389 35 35 [(B "assignment_expression" 150 383 388 35 35 [(B "identifier" 151 383 384 35 35 [] # "left"); (B "assignment_operator" 152 385 386 35 35 [(A "=" 153 385 386 35 35 [])] # "operator"); (B "int" 154 387 388 35 35 [] # "right")]); (A ";" 155 388 389 35 35 [])]); (B "expression_statement" 156 390 396 35 35 [(B "assignment_expression" 157 390 395 35 35 [(B "identifier" 158 390 391 35 35 [] # "left"); (B "assignment_operator" 159 392 393 35 35 [(A "=" 160 392 393 35 35 [])] # "operator"); (B "int" 161 394 395 35 35 [] # "right")]); (A ";" 162 395 396 35 35 [])]); (B "local_variable_declaration" 163 402 430 37 37 [(B "type_identifier" 164 402 409 37 37 [] # "type"); (B "variable_declarator" 165 410 415 37 37 [(B "identifier" 166 410 411 37 37 [] # "name"); (B "assignment_operator" 167 412 413 37 37 [(A "=" 168 412 413 37 37 [])]); (B "int" 169 414 415 37 37 [] # "value")] # "declarator"); (A "," 170 415 416 37 37 []); (B "variable_declarator" 171 417 422 37 37 [(B "identifier" 172 417 418 37 37 [] # "name"); (B "assignment_operator" 173 419 420 37 37 [(A "=" 174 419 420 37 37 [])]); (B "int" 175 421 422 37 37 [] # "value")] # "declarator"); (A "," 176 422 423 37 37 []); (B "variable_declarator" 177 424 429 37 37 [(B "identifier" 178 424 425 37 37 [] # "name"); (B "assignment_operator" 179 426 427 37 37 [(A "=" 180 426 427 37 37 [])]); (B "int" 181 428 429 37 37 [] # "value")] # "declarator"); (A ";" 182 429 430 37 37 [])]); (B "local_variable_declaration" 183 436 450 39 39 [(B "type_identifier" 184 436 443 39 39 [] # "type"); (B "variable_declarator" 185 444 449 39 39 [(B "identifier" 186 444 445 39 39 [] # "name"); (B "assignment_operator" 187 446 447 39 39 [(A "=" 188 446 447 39 39 [])]); (B "int" 189 448 449 39 39 [] # "value")] # "declarator"); (A ";" 190 449 450 39 39 [])]); (A "}" 191 454 455 41 41 [])] # "body")]); (B "method_declaration" 192 460 523 44 52 [(B "void_type" 193 460 464 44 44 [] # "type"); (B "identifier" 194 465 484 44 44 [] # "name"); (B "formal_parameters" 195 484 486 44 44 [(A "(" 196 484 485 44 44 []); (A ")" 197 485 486 44 44 [])] # "parameters"); (B "block" 198 487 523 44 52 [(A "{" 199 487 488 44 44 []); (B "expression_statement" 200 493 505 45 46 [(B "update_expression" 201 493 497 45 45 [(B "identifier" 202 493 494 45 45 [] # "operand"); (A "++" 203 495 497 45 45 [] # "operator")]); (A ";" 204 504 505 46 46 [])]); (B "expression_statement" 205 512 517 49 49 [(B "update_expression" 206 512 516 49 49 [(B "identifier" 207 512 513 49 49 [] # "operand"); (A "--" 208 514 516 49 49 [] # "operator")]); (A ";" 209 516 517 49 49 [])]); (A "}" 210 522 523 52 52 [])] # "body")]); (B "method_declaration" 211 526 566 53 53 [(B "void_type" 212 526 530 53 53 [] # "type"); (B "identifier" 213 531 561 53 53 [] # "name"); (B "formal_parameters" 214 561 563 53 53 [(A "(" 215 561 562 53 53 []); (A ")" 216 562 563 53 53 [])] # "parameters"); (B "block" 217 564 566 53 53 [(A "{" 218 564 565 53 53 []); (A "}" 219 565 566 53 53 [])] # "body")]); (B "method_declaration" 220 569 658 54 64 [(B "void_type" 221 569 573 54 54 [] # "type"); (B "identifier" 222 574 583 54 54 [] # "name"); (B "formal_parameters" 223 583 585 54 54 [(A "(" 224 583 584 54 54 []); (A ")" 225 584 585 54 54 [])] # "parameters"); (B "block" 226 586 658 54 64 [(A "{" 227 586 587 54 54 []); (B "expression_statement" 228 592 601 55 55 [(B "dml_expression" 229 592 600 55 55 [(B "dml_type" 230 592 598 55 55 [(B "insert" 231 592 598 55 55 [(A "insert" 232 592 598 55 55 [])])]); (B "identifier" 233 599 600 55 55 [] # "target")]); (A ";" 234 600 601 55 55 [])]); (B "expression_statement" 235 607 623 57 58 [(B "dml_expression" 236 607 615 57 57 [(B "dml_type" 237 607 613 57 57 [(B "insert" 238 607 613 57 57 [(A "insert" 239 607 613 57 57 [])])]); (B "identifier" 240 614 615 57 57 [] # "target")]); (A ";" 241 622 623 58 58 [])]); (B "expression_statement" 242 629 638 60 60 [(B "dml_expression" 243 629 637 60 60 [(B "dml_type" 244 629 635 60 60 [(B "insert" 245 629 635 60 60 [(A "insert" 246 629 635 60 60 [])])]); (B "identifier" 247 636 637 60 60 [] # "target")]); (A ";" 248 637 638 60 60 [])]); (B "expression_statement" 249 643 652 61 61 [(B "dml_expression" 250 643 651 61 61 [(B "dml_type" 251 643 649 61 61 [(B "insert" 252 643 649 61 61 [(A "insert" 253 643 649 61 61 [])])]); (B "identifier" 254 650 651 61 61 [] # "target")]); (A ";" 255 651 652 61 61 [])]); (A "}" 256 657 658 64 64 [])] # "body")]); (B "method_declaration" 257 662 751 66 76 [(B "void_type" 258 662 666 66 66 [] # "type"); (B "identifier" 259 667 676 66 66 [] # "name"); (B "formal_parameters" 260 676 678 66 66 [(A "(" 261 676 677 66 66 []); (A ")" 262 677 678 66 66 [])] # "parameters"); (B "block" 263 679 751 66 76 [(A "{" 264 679 680 66 66 []); (B "expression_statement" 265 685 694 67 67 [(B "dml_expression" 266 685 693 67 67 [(B "dml_type" 267 685 691 67 67 [(B "update" 268 685 691 67 67 [(A "update" 269 685 691 67 67 [])])]); (B "identifier" 270 692 693 67 67 [] # "target")]); (A ";" 271 693 694 67 67 [])]); (B "expression_statement" 272 700 716 69 70 [(B "dml_expression" 273 700 708 69 69 [(B "dml_type" 274 700 706 69 69 [(B "update" 275 700 706 69 69 [(A "update" 276 700 706 69 69 [])])]); (B "identifier" 277 707 708 69 69 [] # "target")]); (A ";" 278 715 716 70 70 [])]); (B "expression_statement" 279 722 731 72 72 [(B "dml_expression" 280 722 730 72 72 [(B "dml_type" 281 722 728 72 72 [(B "update" 282 722 728 72 72 [(A "update" 283 722 728 72 72 [])])]); (B "identifier" 284 729 730 72 72 [] # "target")]); (A ";" 285 730 731 72 72 [])]); (B "expression_statement" 286 736 745 73 73 [(B "dml_expression" 287 736 744 73 73 [(B "dml_type" 288 736 742 73 73 [(B "update" 289 736 742 73 73 [(A "update" 290 736 742 73 73 [])])]); (B "identifier" 291 743 744 73 73 [] # "target")]); (A ";" 292 744 745 73 73 [])]); (A "}" 293 750 751 76 76 [])] # "body")]); (B "method_declaration" 294 755 844 78 88 [(B "void_type" 295 755 759 78 78 [] # "type"); (B "identifier" 296 760 769 78 78 [] # "name"); (B "formal_parameters" 297 769 771 78 78 [(A "(" 298 769 770 78 78 []); (A ")" 299 770 771 78 78 [])] # "parameters"); (B "block" 300 772 844 78 88 [(A "{" 301 772 773 78 78 []); (B "expression_statement" 302 778 787 79 79 [(B "dml_expression" 303 778 786 79 79 [(B "dml_type" 304 778 784 79 79 [(B "upsert" 305 778 784 79 79 [(A "upsert" 306 778 784 79 79 [])])]); (B "identifier" 307 785 786 79 79 [] # "target")]); (A ";" 308 786 787 79 79 [])]); (B "expression_statement" 309 793 809 81 82 [(B "dml_expression" 310 793 801 81 81 [(B "dml_type" 311 793 799 81 81 [(B "upsert" 312 793 799 81 81 [(A "upsert" 313 793 799 81 81 [])])]); (B "identifier" 314 800 801 81 81 [] # "target")]); (A ";" 315 808 809 82 82 [])]); (B "expression_statement" 316 815 824 84 84 [(B "dml_expression" 317 815 823 84 84 [(B "dml_type" 318 815 821 84 84 [(B "upsert" 319 815 821 84 84 [(A "upsert" 320 815 821 84 84 [])])]); (B "identifier" 321 822 823 84 84 [] # "target")]); (A ";" 322 823 824 84 84 [])]); (B "expression_statement" 323 829 838 85 85 [(B "dml_expression" 324 829 837 85 85 [(B "dml_type" 325 829 835 85 85 [(B "upsert" 326 829 835 85 85 [(A "upsert" 327 829 835 85 85 [])])]); (B "identifier" 328 836 837 85 85 [] # "target")]); (A ";" 329 837 838 85 85 [])]); (A "}" 330 843 844 88 88 [])] # "body")]); (B "method_declaration" 331 848 937 90 100 [(B "void_type" 332 848 852 90 90 [] # "type"); (B "identifier" 333 853 862 90 90 [] # "name"); (B "formal_parameters" 334 862 864 90 90 [(A "(" 335 862 863 90 90 []); (A ")" 336 863 864 90 90 [])] # "parameters"); (B "block" 337 865 937 90 100 [(A "{" 338 865 866 90 90 []); (B "expression_statement" 339 871 880 91 91 [(B "dml_expression" 340 871 879 91 91 [(B "dml_type" 341 871 877 91 91 [(B "delete" 342 871 877 91 91 [(A "delete" 343 871 877 91 91 [])])]); (B "identifier" 344 878 879 91 91 [] # "target")]); (A ";" 345 879 880 91 91 [])]); (B "expression_statement" 346 886 902 93 94 [(B "dml_expression" 347 886 894 93 93 [(B "dml_type" 348 886 892 93 93 [(B "delete" 349 886 892 93 93 [(A "delete" 350 886 892 93 93 [])])]); (B "identifier" 351 893 894 93 93 [] # "target")]); (A ";" 352 901 902 94 94 [])]); (B "expression_statement" 353 908 917 96 96 [(B "dml_expression" 354 908 916 96 96 [(B "dml_type" 355 908 914 96 96 [(B "delete" 356 908 914 96 96 [(A "delete" 357 908 914 96 96 [])])]); (B "identifier" 358 915 916 96 96 [] # "target")]); (A ";" 359 916 917 96 96 [])]); (B "expression_statement" 360 922 931 97 97 [(B "dml_expression" 361 922 930 97 97 [(B "dml_type" 362 922 928 97 97 [(B "delete" 363 922 928 97 97 [(A "delete" 364 922 928 97 97 [])])]); (B "identifier" 365 929 930 97 97 [] # "target")]); (A ";" 366 930 931 97 97 [])]); (A "}" 367 936 937 100 100 [])] # "body")]); (B "method_declaration" 368 941 1040 102 112 [(B "void_type" 369 941 945 102 102 [] # "type"); (B "identifier" 370 946 957 102 102 [] # "name"); (B "formal_parameters" 371 957 959 102 102 [(A "(" 372 957 958 102 102 []); (A ")" 373 958 959 102 102 [])] # "parameters"); (B "block" 374 960 1040 102 112 [(A "{" 375 960 961 102 102 []); (B "expression_statement" 376 966 977 103 103 [(B "dml_expression" 377 966 976 103 103 [(B "dml_type" 378 966 974 103 103 [(B "undelete" 379 966 974 103 103 [(A "undelete" 380 966 974 103 103 [])])]); (B "identifier" 381 975 976 103 103 [] # "target")]); (A ";" 382 976 977 103 103 [])]); (B "expression_statement" 383 983 1001 105 106 [(B "dml_expression" 384 983 993 105 105 [(B "dml_type" 385 983 991 105 105 [(B "undelete" 386 983 991 105 105 [(A "undelete" 387 983 991 105 105 [])])]); (B "identifier" 388 992 993 105 105 [] # "target")]); (A ";" 389 1000 1001 106 106 [])]); (B "expression_statement" 390 1007 1018 108 108 [(B "dml_expression" 391 1007 1017 108 108 [(B "dml_type" 392 1007 1015 108 108 [(B "undelete" 393 1007 1015 108 108 [(A "undelete" 394 1007 1015 108 108 [])])]); (B "identifier" 395 1016 1017 108 108 [] # "target")]); (A ";" 396 1017 1018 108 108 [])]); (B "expression_statement" 397 1023 1034 109 109 [(B "dml_expression" 398 1023 1033 109 109 [(B "dml_type" 399 1023 1031 109 109 [(B "undelete" 400 1023 1031 109 109 [(A "undelete" 401 1023 1031 109 109 [])])]); (B "identifier" 402 1032 1033 109 109 [] # "target")]); (A ";" 403 1033 1034 109 109 [])]); (A "}" 404 1039 1040 112 112 [])] # "body")]); (B "method_declaration" 405 1044 1149 114 127 [(B "void_type" 406 1044 1048 114 114 [] # "type"); (B "identifier" 407 1049 1057 114 114 [] # "name"); (B "formal_parameters" 408 1057 1059 114 114 [(A "(" 409 1057 1058 114 114 []); (A ")" 410 1058 1059 114 114 [])] # "parameters"); (B "block" 411 1060 1149 114 127 [(A "{" 412 1060 1061 114 114 []); (B "expression_statement" 413 1066 1076 115 115 [(B "dml_expression" 414 1066 1075 115 115 [(B "dml_type" 415 1066 1071 115 115 [(B "merge" 416 1066 1071 115 115 [(A "merge" 417 1066 1071 115 115 [])])]); (B "identifier" 418 1072 1073 115 115 [] # "target"); (B "identifier" 419 1074 1075 115 115 [] # "merge_with")]); (A ";" 420 1075 1076 115 115 [])]); (B "expression_statement" 421 1082 1112 117 121 [(B "dml_expression" 422 1082 1104 117 120 [(B "dml_type" 423 1082 1087 117 117 [(B "merge" 424 1082 1087 117 117 [(A "merge" 425 1082 1087 117 117 [])])]); (B "identifier" 426 1094 1095 118 118 [] # "target"); (B "identifier" 427 1103 1104 120 120 [] # "merge_with")]); (A ";" 428 1111 1112 121 121 [])]); (B "expression_statement" 429 1118 1128 123 123 [(B "dml_expression" 430 1118 1127 123 123 [(B "dml_type" 431 1118 1123 123 123 [(B "merge" 432 1118 1123 123 123 [(A "merge" 433 1118 1123 123 123 [])])]); (B "identifier" 434 1124 1125 123 123 [] # "target"); (B "identifier" 435 1126 1127 123 123 [] # "merge_with")]); (A ";" 436 1127 1128 123 123 [])]); (B "expression_statement" 437 1133 1143 124 124 [(B "dml_expression" 438 1133 1142 124 124 [(B "dml_type" 439 1133 1138 124 124 [(B "merge" 440 1133 1138 124 124 [(A "merge" 441 1133 1138 124 124 [])])]); (B "identifier" 442 1139 1140 124 124 [] # "target"); (B "identifier" 443 1141 1142 124 124 [] # "merge_with")]); (A ";" 444 1142 1143 124 124 [])]); (A "}" 445 1148 1149 127 127 [])] # "body")]); (B "method_declaration" 446 1153 1249 129 140 [(B "void_type" 447 1153 1157 129 129 [] # "type"); (B "identifier" 448 1158 1173 129 129 [] # "name"); (B "formal_parameters" 449 1173 1175 129 129 [(A "(" 450 1173 1174 129 129 []); (A ")" 451 1174 1175 129 129 [])] # "parameters"); (B "block" 452 1176 1249 129 140 [(A "{" 453 1176 1177 129 129 []); (B "return_statement" 454 1182 1191 130 130 [(A "return" 455 1182 1188 130 130 []); (B "identifier" 456 1189 1190 130 130 []); (A ";" 457 1190 1191 130 130 [])]); (B "return_statement" 458 1198 1214 133 134 [(A "return" 459 1198 1204 133 133 []); (B "identifier" 460 1205 1206 133 133 []); (A ";" 461 1213 1214 134 134 [])]); (B "return_statement" 462 1220 1229 136 136 [(A "return" 463 1220 1226 136 136 []); (B "identifier" 464 1227 1228 136 136 []); (A ";" 465 1228 1229 136 136 [])]); (B "return_statement" 466 1234 1243 137 137 [(A "return" 467 1234 1240 137 137 []); (B "identifier" 468 1241 1242 137 137 []); (A ";" 469 1242 1243 137 137 [])]); (A "}" 470 1248 1249 140 140 [])] # "body")]); (B "method_declaration" 471 1253 1343 142 152 [(B "void_type" 472 1253 1257 142 142 [] # "type"); (B "identifier" 473 1258 1272 142 142 [] # "name"); (B "formal_parameters" 474 1272 1274 142 142 [(A "(" 475 1272 1273 142 142 []); (A ")" 476 1273 1274 142 142 [])] # "parameters"); (B "block" 477 1275 1343 142 152 [(A "{" 478 1275 1276 142 142 []); (B "throw_statement" 479 1281 1289 143 143 [(A "throw" 480 1281 1286 143 143 []); (B "identifier" 481 1287 1288 143 143 []); (A ";" 482 1288 1289 143 143 [])]); (B "throw_statement" 483 1295 1310 145 146 [(A "throw" 484 1295 1300 145 145 []); (B "identifier" 485 1301 1302 145 145 []); (A ";" 486 1309 1310 146 146 [])]); (B "throw_statement" 487 1316 1324 148 148 [(A "throw" 488 1316 1321 148 148 []); (B "identifier" 489 1322 1323 148 148 []); (A ";" 490 1323 1324 148 148 [])]); (B "throw_statement" 491 1329 1337 149 149 [(A "throw" 492 1329 1334 149 149 []); (B "identifier" 493 1335 1336 149 149 []); (A ";" 494 1336 1337 149 149 [])]); (A "}" 495 1342 1343 152 152 [])] # "body")]); (B "method_declaration" 496 1347 1464 154 166 [(B "void_type" 497 1347 1351 154 154 [] # "type"); (B "identifier" 498 1352 1366 154 154 [] # "name"); (B "formal_parameters" 499 1366 1368 154 154 [(A "(" 500 1366 1367 154 154 []); (A ")" 501 1367 1368 154 154 [])] # "parameters"); (B "block" 502 1369 1464 154 166 [(A "{" 503 1369 1370 154 154 []); (B "while_statement" 504 1375 1460 155 165 [(A "while" 505 1375 1380 155 155 []); (B "parenthesized_expression" 506 1381 1387 155 155 [(A "(" 507 1381 1382 155 155 []); (B "boolean" 508 1382 1386 155 155 [(A "true" 509 1382 1386 155 155 [])]); (A ")" 510 1386 1387 155 155 [])] # "condition"); (B "block" 511 1388 1460 155 165 [(A "{" 512 1388 1389 155 155 []); (B "break_statement" 513 1396 1402 156 156 [(A "break" 514 1396 1401 156 156 []); (A ";" 515 1401 1402 156 156 [])]); (B "break_statement" 516 1410 1425 158 159 [(A "break" 517 1410 1415 158 158 []); (A ";" 518 1424 1425 159 159 [])]); (B "break_statement" 519 1433 1439 161 161 [(A "break" 520 1433 1438 161 161 []); (A ";" 521 1438 1439 161 161 [])]); (B "break_statement" 522 1446 1452 162 162 [(A "break" 523 1446 1451 162 162 []); (A ";" 524 1451 1452 162 162 [])]); (A "}" 525 1459 1460 165 165 [])] # "body")]); (A "}" 526 1463 1464 166 166 [])] # "body")]); (B "method_declaration" 527 1468 1600 168 180 [(B "void_type" 528 1468 1472 168 168 [] # "type"); (B "identifier" 529 1473 1490 168 168 [] # "name"); (B "formal_parameters" 530 1490 1492 168 168 [(A "(" 531 1490 1491 168 168 []); (A ")" 532 1491 1492 168 168 [])] # "parameters"); (B "block" 533 1493 1600 168 180 [(A "{" 534 1493 1494 168 168 []); (B "while_statement" 535 1499 1596 169 179 [(A "while" 536 1499 1504 169 169 []); (B "parenthesized_expression" 537 1505 1511 169 169 [(A "(" 538 1505 1506 169 169 []); (B "boolean" 539 1506 1510 169 169 [(A "true" 540 1506 1510 169 169 [])]); (A ")" 541 1510 1511 169 169 [])] # "condition"); (B "block" 542 1512 1596 169 179 [(A "{" 543 1512 1513 169 169 []); (B "continue_statement" 544 1520 1529 170 170 [(A "continue" 545 1520 1528 170 170 []); (A ";" 546 1528 1529 170 170 [])]); (B "continue_statement" 547 1537 1555 172 173 [(A "continue" 548 1537 1545 172 172 []); (A ";" 549 1554 1555 173 173 [])]); (B "continue_statement" 550 1563 1572 175 175 [(A "continue" 551 1563 1571 175 175 []); (A ";" 552 1571 1572 175 175 [])]); (B "continue_statement" 553 1579 1588 176 176 [(A "continue" 554 1579 1587 176 176 []); (A ";" 555 1587 1588 176 176 [])]); (A "}" 556 1595 1596 179 179 [])] # "body")]); (A "}" 557 1599 1600 180 180 [])] # "body")]); (B "method_declaration" 558 1604 1853 182 206 [(B "void_type" 559 1604 1608 182 182 [] # "type"); (B "identifier" 560 1609 1620 182 182 [] # "name"); (B "formal_parameters" 561 1620 1622 182 182 [(A "(" 562 1620 1621 182 182 []); (A ")" 563 1621 1622 182 182 [])] # "parameters"); (B "block" 564 1623 1853 182 206 [(A "{" 565 1623 1624 182 182 []); (B "local_variable_declaration" 566 1629 1643 183 183 [(B "type_identifier" 567 1629 1636 183 183 [] # "type"); (B "variable_declarator" 568 1637 1642 183 183 [(B "identifier" 569 1637 1638 183 183 [] # "name"); (B "assignment_operator" 570 1639 1640 183 183 [(A "=" 571 1639 1640 183 183 [])]); (B "int" 572 1641 1642 183 183 [] # "value")] # "declarator"); (A ";" 573 1642 1643 183 183 [])]); (B "if_statement" 574 1648 1690 184 184 [(A "if" 575 1648 1650 184 184 []); (B "parenthesized_expression" 576 1651 1659 184 184 [(A "(" 577 1651 1652 184 184 []); (B "binary_expression" 578 1652 1658 184 184 [(B "identifier" 579 1652 1653 184 184 [] # "left"); (A "==" 580 1654 1656 184 184 [] # "operator"); (B "int" 581 1657 1658 184 184 [] # "right")]); (A ")" 582 1658 1659 184 184 [])] # "condition"); (B "block" 583 1660 1662 184 184 [(A "{" 584 1660 1661 184 184 []); (A "}" 585 1661 1662 184 184 [])] # "consequence"); (A "else" 586 1663 1667 184 184 []); (B "if_statement" 587 1668 1690 184 184 [(A "if" 588 1668 1670 184 184 []); (B "parenthesized_expression" 589 1671 1679 184 184 [(A "(" 590 1671 1672 184 184 []); (B "binary_expression" 591 1672 1678 184 184 [(B "identifier" 592 1672 1673 184 184 [] # "left"); (A "==" 593 1674 1676 184 184 [] # "operator"); (B "int" 594 1677 1678 184 184 [] # "right")]); (A ")" 595 1678 1679 184 184 [])] # "condition"); (B "block" 596 1680 1682 184 184 [(A "{" 597 1680 1681 184 184 []); (A "}" 598 1681 1682 184 184 [])] # "consequence"); (A "else" 599 1683 1687 184 184 []); (B "block" 600 1688 1690 184 184 [(A "{" 601 1688 1689 184 184 []); (A "}" 602 1689 1690 184 184 [])] # "alternative")] # "alternative")]); (B "if_statement" 603 1697 1757 187 193 [(A "if" 604 1697 1699 187 187 []); (B "parenthesized_expression" 605 1700 1708 187 187 [(A "(" 606 1700 1701 187 187 []); (B "binary_expression" 607 1701 1707 187 187 [(B "identifier" 608 1701 1702 187 187 [] # "left"); (A "==" 609 1703 1705 187 187 [] # "operator"); (B "int" 610 1706 1707 187 187 [] # "right")]); (A ")" 611 1707 1708 187 187 [])] # "condition"); (B "block" 612 1709 1717 187 189 [(A "{" 613 1709 1710 187 187 []); (A "}" 614 1716 1717 189 189 [])] # "consequence"); (A "else" 615 1718 1722 189 189 []); (B "if_statement" 616 1723 1757 189 193 [(A "if" 617 1723 1725 189 189 []); (B "parenthesized_expression" 618 1726 1734 189 189 [(A "(" 619 1726 1727 189 189 []); (B "binary_expression" 620 1727 1733 189 189 [(B "identifier" 621 1727 1728 189 189 [] # "left"); (A "==" 622 1729 1731 189 189 [] # "operator"); (B "int" 623 1732 1733 189 189 [] # "right")]); (A ")" 624 1733 1734 189 189 [])] # "condition"); (B "block" 625 1735 1743 189 191 [(A "{" 626 1735 1736 189 189 []); (A "}" 627 1742 1743 191 191 [])] # "consequence"); (A "else" 628 1744 1748 191 191 []); (B "block" 629 1749 1757 191 193 [(A "{" 630 1749 1750 191 191 []); (A "}" 631 1756 1757 193 193 [])] # "alternative")] # "alternative")]); (B "if_statement" 632 1763 1820 195 198 [(A "if" 633 1763 1765 195 195 []); (B "parenthesized_expression" 634 1766 1774 195 195 [(A "(" 635 1766 1767 195 195 []); (B "binary_expression" 636 1767 1773 195 195 [(B "identifier" 637 1767 1768 195 195 [] # "left"); (A "==" 638 1769 1771 195 195 [] # "operator"); (B "int" 639 1772 1773 195 195 [] # "right")]); (A ")" 640 1773 1774 195 195 [])] # "condition"); (B "block" 641 1775 1782 195 196 [(A "{" 642 1775 1776 195 195 []); (A "}" 643 1781 1782 196 196 [])] # "consequence"); (A "else" 644 1783 1787 196 196 []); (B "if_statement" 645 1788 1820 196 198 [(A "if" 646 1788 1790 196 196 []); (B "parenthesized_expression" 647 1791 1799 196 196 [(A "(" 648 1791 1792 196 196 []); (B "binary_expression" 649 1792 1798 196 196 [(B "identifier" 650 1792 1793 196 196 [] # "left"); (A "==" 651 1794 1796 196 196 [] # "operator"); (B "int" 652 1797 1798 196 196 [] # "right")]); (A ")" 653 1798 1799 196 196 [])] # "condition"); (B "block" 654 1800 1807 196 197 [(A "{" 655 1800 1801 196 196 []); (A "}" 656 1806 1807 197 197 [])] # "consequence"); (A "else" 657 1808 1812 197 197 []); (B "block" 658 1813 1820 197 198 [(A "{" 659 1813 1814 197 197 []); (A "}" 660 1819 1820 198 198 [])] # "alternative")] # "alternative")]); (B "if_statement" 661 1827 1847 201 203 [(A "if" 662 1827 1829 201 201 []); (B "parenthesized_expression" 663 1830 1838 201 201 [(A "(" 664 1830 1831 201 201 []); (B "binary_expression" 665 1831 1837 201 201 [(B "identifier" 666 1831 1832 201 201 [] # "left"); (A "==" 667 1833 1835 201 201 [] # "operator"); (B "int" 668 1836 1837 201 201 [] # "right")]); (A ")" 669 1837 1838 201 201 [])] # "condition"); (B "block" 670 1839 1847 201 203 [(A "{" 671 1839 1840 201 201 []); (A "}" 672 1846 1847 203 203 [])] # "consequence")]); (A "}" 673 1852 1853 206 206 [])] # "body")]); (B "method_declaration" 674 1857 2038 208 220 [(B "void_type" 675 1857 1861 208 208 [] # "type"); (B "identifier" 676 1862 1875 208 208 [] # "name"); (B "formal_parameters" 677 1875 1877 208 208 [(A "(" 678 1875 1876 208 208 []); (A ")" 679 1876 1877 208 208 [])] # "parameters"); (B "block" 680 1878 2038 208 220 [(A "{" 681 1878 1879 208 208 []); (B "try_statement" 682 1884 1942 209 215 [(A "try" 683 1884 1887 209 209 []); (B "block" 684 1888 1896 209 211 [(A "{" 685 1888 1889 209 209 []); (A "}" 686 1895 1896 211 211 [])] # "body"); (B "catch_clause" 687 1897 1925 211 213 [(A "catch" 688 1897 1902 211 211 []); (A "(" 689 1903 1904 211 211 []); (B "formal_parameter" 690 1904 1915 211 211 [(B "type_identifier" 691 1904 1913 211 211 [] # "type"); (B "identifier" 692 1914 1915 211 211 [] # "name")]); (A ")" 693 1915 1916 211 211 []); (B "block" 694 1917 1925 211 213 [(A "{" 695 1917 1918 211 211 []); (A "}" 696 1924 1925 213 213 [])] # "body")]); (B "finally_clause" 697 1926 1942 213 215 [(A "finally" 698 1926 1933 213 213 []); (B "block" 699 1934 1942 213 215 [(A "{" 700 1934 1935 213 213 []); (A "}" 701 1941 1942 215 215 [])])])]); (B "try_statement" 702 1948 1988 217 217 [(A "try" 703 1948 1951 217 217 []); (B "block" 704 1952 1954 217 217 [(A "{" 705 1952 1953 217 217 []); (A "}" 706 1953 1954 217 217 [])] # "body"); (B "catch_clause" 707 1955 1977 217 217 [(A "catch" 708 1955 1960 217 217 []); (A "(" 709 1961 1962 217 217 []); (B "formal_parameter" 710 1962 1973 217 217 [(B "type_identifier" 711 1962 1971 217 217 [] # "type"); (B "identifier" 712 1972 1973 217 217 [] # "name")]); (A ")" 713 1973 1974 217 217 []); (B "block" 714 1975 1977 217 217 [(A "{" 715 1975 1976 217 217 []); (A "}" 716 1976 1977 217 217 [])] # "body")]); (B "finally_clause" 717 1978 1988 217 217 [(A "finally" 718 1978 1985 217 217 []); (B "block" 719 1986 1988 217 217 [(A "{" 720 1986 1987 217 217 []); (A "}" 721 1987 1988 217 217 [])])])]); (B "try_statement" 722 1994 2034 219 219 [(A "try" 723 1994 1997 219 219 []); (B "block" 724 1998 2000 219 219 [(A "{" 725 1998 1999 219 219 []); (A "}" 726 1999 2000 219 219 [])] # "body"); (B "catch_clause" 727 2001 2023 219 219 [(A "catch" 728 2001 2006 219 219 []); (A "(" 729 2007 2008 219 219 []); (B "formal_parameter" 730 2008 2019 219 219 [(B "type_identifier" 731 2008 2017 219 219 [] # "type"); (B "identifier" 732 2018 2019 219 219 [] # "name")]); (A ")" 733 2019 2020 219 219 []); (B "block" 734 2021 2023 219 219 [(A "{" 735 2021 2022 219 219 []); (A "}" 736 2022 2023 219 219 [])] # "body")]); (B "finally_clause" 737 2024 2034 219 219 [(A "finally" 738 2024 2031 219 219 []); (B "block" 739 2032 2034 219 219 [(A "{" 740 2032 2033 219 219 []); (A "}" 741 2033 2034 219 219 [])])])]); (A "}" 742 2037 2038 220 220 [])] # "body")]); (B "method_declaration" 743 2042 2158 222 231 [(B "void_type" 744 2042 2046 222 222 [] # "type"); (B "identifier" 745 2047 2054 222 222 [] # "name"); (B "formal_parameters" 746 2054 2056 222 222 [(A "(" 747 2054 2055 222 222 []); (A ")" 748 2055 2056 222 222 [])] # "parameters"); (B "block" 749 2057 2158 222 231 [(A "{" 750 2057 2058 222 222 []); (B "enhanced_for_statement" 751 2063 2093 223 225 [(A "for" 752 2063 2066 223 223 []); (A "(" 753 2067 2068 223 223 []); (B "type_identifier" 754 2068 2074 223 223 [] # "type"); (B "identifier" 755 2075 2076 223 223 [] # "name"); (A ":" 756 2076 2077 223 223 []); (B "identifier" 757 2078 2083 223 223 [] # "value"); (A ")" 758 2083 2084 223 223 []); (B "block" 759 2085 2093 223 225 [(A "{" 760 2085 2086 223 223 []); (A "}" 761 2092 2093 225 225 [])] # "body")]); (B "enhanced_for_statement" 762 2099 2123 227 227 [(A "for" 763 2099 2102 227 227 []); (A "(" 764 2103 2104 227 227 []); (B "type_identifier" 765 2104 2110 227 227 [] # "type"); (B "identifier" 766 2111 2112 227 227 [] # "name"); (A ":" 767 2112 2113 227 227 []); (B "identifier" 768 2114 2119 227 227 [] # "value"); (A ")" 769 2119 2120 227 227 []); (B "block" 770 2121 2123 227 227 [(A "{" 771 2121 2122 227 227 []); (A "}" 772 2122 2123 227 227 [])] # "body")]); (B "enhanced_for_statement" 773 2129 2153 229 229 [(A "for" 774 2129 2132 229 229 []); (A "(" 775 2133 2134 229 229 []); (B "type_identifier" 776 2134 2140 229 229 [] # "type"); (B "identifier" 777 2141 2142 229 229 [] # "name"); (A ":" 778 2142 2143 229 229 []); (B "identifier" 779 2144 2149 229 229 [] # "value"); (A ")" 780 2149 2150 229 229 []); (B "block" 781 2151 2153 229 229 [(A "{" 782 2151 2152 229 229 []); (A "}" 783 2152 2153 229 229 [])] # "body")]); (A "}" 784 2157 2158 231 231 [])] # "body")]); (B "method_declaration" 785 2162 2257 233 243 [(B "void_type" 786 2162 2166 233 233 [] # "type"); (B "identifier" 787 2167 2176 233 233 [] # "name"); (B "formal_parameters" 788 2176 2178 233 233 [(A "(" 789 2176 2177 233 233 []); (A ")" 790 2177 2178 233 233 [])] # "parameters"); (B "block" 791 2179 2257 233 243 [(A "{" 792 2179 2180 233 233 []); (B "while_statement" 793 2185 2207 234 236 [(A "while" 794 2185 2190 234 234 []); (B "parenthesized_expression" 795 2191 2198 234 234 [(A "(" 796 2191 2192 234 234 []); (B "binary_expression" 797 2192 2197 234 234 [(B "identifier" 798 2192 2193 234 234 [] # "left"); (A "<" 799 2194 2195 234 234 [] # "operator"); (B "int" 800 2196 2197 234 234 [] # "right")]); (A ")" 801 2197 2198 234 234 [])] # "condition"); (B "block" 802 2199 2207 234 236 [(A "{" 803 2199 2200 234 234 []); (A "}" 804 2206 2207 236 236 [])] # "body")]); (B "while_statement" 805 2213 2229 238 238 [(A "while" 806 2213 2218 238 238 []); (B "parenthesized_expression" 807 2219 2226 238 238 [(A "(" 808 2219 2220 238 238 []); (B "binary_expression" 809 2220 2225 238 238 [(B "identifier" 810 2220 2221 238 238 [] # "left"); (A "<" 811 2222 2223 238 238 [] # "operator"); (B "int" 812 2224 2225 238 238 [] # "right")]); (A ")" 813 2225 2226 238 238 [])] # "condition"); (B "block" 814 2227 2229 238 238 [(A "{" 815 2227 2228 238 238 []); (A "}" 816 2228 2229 238 238 [])] # "body")]); (B "while_statement" 817 2235 2251 240 240 [(A "while" 818 2235 2240 240 240 []); (B "parenthesized_expression" 819 2241 2248 240 240 [(A "(" 820 2241 2242 240 240 []); (B "binary_expression" 821 2242 2247 240 240 [(B "identifier" 822 2242 2243 240 240 [] # "left"); (A "<" 823 2244 2245 240 240 [] # "operator"); (B "int" 824 2246 2247 240 240 [] # "right")]); (A ")" 825 2247 2248 240 240 [])] # "condition"); (B "block" 826 2249 2251 240 240 [(A "{" 827 2249 2250 240 240 []); (A "}" 828 2250 2251 240 240 [])] # "body")]); (A "}" 829 2256 2257 243 243 [])] # "body")]); (B "method_declaration" 830 2261 2377 245 260 [(B "void_type" 831 2261 2265 245 245 [] # "type"); (B "identifier" 832 2266 2272 245 245 [] # "name"); (B "formal_parameters" 833 2272 2274 245 245 [(A "(" 834 2272 2273 245 245 []); (A ")" 835 2273 2274 245 245 [])] # "parameters"); (B "block" 836 2275 2377 245 260 [(A "{" 837 2275 2276 245 245 []); (B "do_statement" 838 2281 2307 246 248 [(A "do" 839 2281 2283 246 246 []); (B "block" 840 2284 2292 246 248 [(A "{" 841 2284 2285 246 246 []); (A "}" 842 2291 2292 248 248 [])] # "body"); (A "while" 843 2293 2298 248 248 []); (B "parenthesized_expression" 844 2299 2306 248 248 [(A "(" 845 2299 2300 248 248 []); (B "binary_expression" 846 2300 2305 248 248 [(B "identifier" 847 2300 2301 248 248 [] # "left"); (A "<" 848 2302 2303 248 248 [] # "operator"); (B "int" 849 2304 2305 248 248 [] # "right")]); (A ")" 850 2305 2306 248 248 [])] # "condition"); (A ";" 851 2306 2307 248 248 [])]); (B "do_statement" 852 2314 2345 251 255 [(A "do" 853 2314 2316 251 251 []); (B "block" 854 2317 2325 251 253 [(A "{" 855 2317 2318 251 251 []); (A "}" 856 2324 2325 253 253 [])] # "body"); (A "while" 857 2331 2336 255 255 []); (B "parenthesized_expression" 858 2337 2344 255 255 [(A "(" 859 2337 2338 255 255 []); (B "binary_expression" 860 2338 2343 255 255 [(B "identifier" 861 2338 2339 255 255 [] # "left"); (A "<" 862 2340 2341 255 255 [] # "operator"); (B "int" 863 2342 2343 255 255 [] # "right")]); (A ")" 864 2343 2344 255 255 [])] # "condition"); (A ";" 865 2344 2345 255 255 [])]); (B "do_statement" 866 2351 2371 257 257 [(A "do" 867 2351 2353 257 257 []); (B "block" 868 2354 2356 257 257 [(A "{" 869 2354 2355 257 257 []); (A "}" 870 2355 2356 257 257 [])] # "body"); (A "while" 871 2357 2362 257 257 []); (B "parenthesized_expression" 872 2363 2370 257 257 [(A "(" 873 2363 2364 257 257 []); (B "binary_expression" 874 2364 2369 257 257 [(B "identifier" 875 2364 2365 257 257 [] # "left"); (A "<" 876 2366 2367 257 257 [] # "operator"); (B "int" 877 2368 2369 257 257 [] # "right")]); (A ")" 878 2369 2370 257 257 [])] # "condition"); (A ";" 879 2370 2371 257 257 [])]); (A "}" 880 2376 2377 260 260 [])] # "body")]); (B "class_declaration" 881 2381 2474 262 267 [(A "class" 882 2381 2386 262 262 []); (B "identifier" 883 2387 2403 262 262 [] # "name"); (B "class_body" 884 2404 2474 262 267 [(A "{" 885 2404 2405 262 262 []); (B "class_declaration" 886 2410 2435 263 263 [(A "class" 887 2410 2415 263 263 []); (B "identifier" 888 2416 2432 263 263 [] # "name"); (B "class_body" 889 2433 2435 263 263 [(A "{" 890 2433 2434 263 263 []); (A "}" 891 2434 2435 263 263 [])] # "body")]); (B "class_declaration" 892 2441 2469 265 265 [(A "class" 893 2441 2446 265 265 []); (B "identifier" 894 2447 2466 265 265 [] # "name"); (B "class_body" 895 2467 2469 265 265 [(A "{" 896 2467 2468 265 265 []); (A "}" 897 2468 2469 265 265 [])] # "body")]); (A "}" 898 2473 2474 267 267 [])] # "body")]); (B "class_declaration" 899 2478 2584 269 274 [(A "class" 900 2478 2483 269 269 []); (B "identifier" 901 2484 2497 269 269 [] # "name"); (B "class_body" 902 2498 2584 269 274 [(A "{" 903 2498 2499 269 269 []); (B "interface_declaration" 904 2504 2537 270 270 [(A "interface" 905 2504 2513 270 270 []); (B "identifier" 906 2514 2534 270 270 [] # "name"); (B "interface_body" 907 2535 2537 270 270 [(A "{" 908 2535 2536 270 270 []); (A "}" 909 2536 2537 270 270 [])] # "body")]); (B "interface_declaration" 910 2543 2579 272 272 [(A "interface" 911 2543 2552 272 272 []); (B "identifier" 912 2553 2576 272 272 [] # "name"); (B "interface_body" 913 2577 2579 272 272 [(A "{" 914 2577 2578 272 272 []); (A "}" 915 2578 2579 272 272 [])] # "body")]); (A "}" 916 2583 2584 274 274 [])] # "body")]); (B "class_declaration" 917 2588 2676 276 281 [(A "class" 918 2588 2593 276 276 []); (B "identifier" 919 2594 2609 276 276 [] # "name"); (B "class_body" 920 2610 2676 276 281 [(A "{" 921 2610 2611 276 276 []); (B "enum_declaration" 922 2616 2639 277 277 [(A "enum" 923 2616 2620 277 277 []); (B "identifier" 924 2621 2636 277 277 [] # "name"); (B "enum_body" 925 2637 2639 277 277 [(A "{" 926 2637 2638 277 277 []); (A "}" 927 2638 2639 277 277 [])] # "body")]); (B "enum_declaration" 928 2645 2671 279 279 [(A "enum" 929 2645 2649 279 279 []); (B "identifier" 930 2650 2668 279 279 [] # "name"); (B "enum_body" 931 2669 2671 279 279 [(A "{" 932 2669 2670 279 279 []); (A "}" 933 2670 2671 279 279 [])] # "body")]); (A "}" 934 2675 2676 281 281 [])] # "body")]); (B "class_declaration" 935 2680 2791 283 288 [(A "class" 936 2680 2685 283 283 []); (B "identifier" 937 2686 2700 283 283 [] # "name"); (B "class_body" 938 2701 2791 283 288 [(A "{" 939 2701 2702 283 283 []); (B "field_declaration" 940 2707 2742 284 284 [(B "type_identifier" 941 2707 2713 284 284 [] # "type"); (B "variable_declarator" 942 2714 2728 284 284 [(B "identifier" 943 2714 2728 284 284 [] # "name")] # "declarator"); (B "accessor_list" 944 2729 2742 284 284 [(A "{" 945 2729 2730 284 284 []); (B "accessor_declaration" 946 2731 2735 284 284 [(A "get" 947 2731 2734 284 284 [] # "accessor"); (A ";" 948 2734 2735 284 284 [])]); (B "accessor_declaration" 949 2736 2740 284 284 [(A "set" 950 2736 2739 284 284 [] # "accessor"); (A ";" 951 2739 2740 284 284 [])]); (A "}" 952 2741 2742 284 284 [])])]); (B "field_declaration" 953 2748 2786 286 286 [(B "type_identifier" 954 2748 2754 286 286 [] # "type"); (B "variable_declarator" 955 2755 2772 286 286 [(B "identifier" 956 2755 2772 286 286 [] # "name")] # "declarator"); (B "accessor_list" 957 2773 2786 286 286 [(A "{" 958 2773 2774 286 286 []); (B "accessor_declaration" 959 2775 2779 286 286 [(A "get" 960 2775 2778 286 286 [] # "accessor"); (A ";" 961 2778 2779 286 286 [])]); (B "accessor_declaration" 962 2780 2784 286 286 [(A "set" 963 2780 2783 286 286 [] # "accessor"); (A ";" 964 2783 2784 286 286 [])]); (A "}" 965 2785 2786 286 286 [])])]); (A "}" 966 2790 2791 288 288 [])] # "body")]); (B "class_declaration" 967 2795 2874 290 295 [(A "class" 968 2795 2800 290 290 []); (B "identifier" 969 2801 2815 290 290 [] # "name"); (B "class_body" 970 2816 2874 290 295 [(A "{" 971 2816 2817 290 290 []); (B "field_declaration" 972 2822 2841 291 291 [(B "type_identifier" 973 2822 2828 291 291 [] # "type"); (B "variable_declarator" 974 2829 2840 291 291 [(B "identifier" 975 2829 2840 291 291 [] # "name")] # "declarator"); (A ";" 976 2840 2841 291 291 [])]); (B "field_declaration" 977 2847 2869 293 293 [(B "type_identifier" 978 2847 2853 293 293 [] # "type"); (B "variable_declarator" 979 2854 2868 293 293 [(B "identifier" 980 2854 2868 293 293 [] # "name")] # "declarator"); (A ";" 981 2868 2869 293 293 [])]); (A "}" 982 2873 2874 295 295 [])] # "body")]); (B "interface_declaration" 983 2878 2911 297 297 [(A "interface" 984 2878 2887 297 297 []); (B "identifier" 985 2888 2908 297 297 [] # "name"); (B "interface_body" 986 2909 2911 297 297 [(A "{" 987 2909 2910 297 297 []); (A "}" 988 2910 2911 297 297 [])] # "body")]); (B "method_declaration" 989 2915 3119 299 319 [(B "void_type" 990 2915 2919 299 299 [] # "type"); (B "identifier" 991 2920 2935 299 299 [] # "name"); (B "formal_parameters" 992 2935 2937 299 299 [(A "(" 993 2935 2936 299 299 []); (A ")" 994 2936 2937 299 299 [])] # "parameters"); (B "block" 995 2938 3119 299 319 [(A "{" 996 2938 2939 299 299 []); (B "switch_expression" 997 2944 3015 300 304 [(A "switch" 998 2944 2950 300 300 []); (A "on" 999 2951 2953 300 300 []); (B "identifier" 1000 2954 2955 300 300 [] # "condition"); (B "switch_block" 1001 2956 3015 300 304 [(A "{" 1002 2956 2957 300 300 []); (B "switch_rule" 1003 2964 3009 301 303 [(B "switch_label" 1004 2964 2970 301 301 [(A "when" 1005 2964 2968 301 301 []); (B "int" 1006 2969 2970 301 301 [])]); (B "block" 1007 2971 3009 301 303 [(A "{" 1008 2971 2972 301 301 []); (B "expression_statement" 1009 2981 3001 302 302 [(B "method_invocation" 1010 2981 3000 302 302 [(B "identifier" 1011 2981 2987 302 302 [] # "object"); (A "." 1012 2987 2988 302 302 []); (B "identifier" 1013 2988 2993 302 302 [] # "name"); (B "argument_list" 1014 2993 3000 302 302 [(A "(" 1015 2993 2994 302 302 []); (B "string_literal" 1016 2994 2999 302 302 []); (A ")" 1017 2999 3000 302 302 [])] # "arguments")]); (A ";" 1018 3000 3001 302 302 [])]); (A "}" 1019 3008 3009 303 303 [])])]); (A "}" 1020 3014 3015 304 304 [])] # "body")]); (B "switch_expression" 1021 3021 3064 306 310 [(A "switch" 1022 3021 3027 306 306 []); (A "on" 1023 3028 3030 306 306 []); (B "identifier" 1024 3031 3032 306 306 [] # "condition"); (B "switch_block" 1025 3033 3064 306 310 [(A "{" 1026 3033 3034 306 306 []); (B "switch_rule" 1027 3041 3058 307 309 [(B "switch_label" 1028 3041 3047 307 307 [(A "when" 1029 3041 3045 307 307 []); (B "int" 1030 3046 3047 307 307 [])]); (B "block" 1031 3048 3058 307 309 [(A "{" 1032 3048 3049 307 307 []); (A "}" 1033 3057 3058 309 309 [])])]); (A "}" 1034 3063 3064 310 310 [])] # "body")]); (B "switch_expression" 1035 3070 3113 312 316 [(A "switch" 1036 3070 3076 312 312 []); (A "on" 1037 3077 3079 312 312 []); (B "identifier" 1038 3080 3081 312 312 [] # "condition"); (B "switch_block" 1039 3082 3113 312 316 [(A "{" 1040 3082 3083 312 312 []); (B "switch_rule" 1041 3090 3107 313 315 [(B "switch_label" 1042 3090 3096 313 313 [(A "when" 1043 3090 3094 313 313 []); (B "int" 1044 3095 3096 313 313 [])]); (B "block" 1045 3097 3107 313 315 [(A "{" 1046 3097 3098 313 313 []); (A "}" 1047 3106 3107 315 315 [])])]); (A "}" 1048 3112 3113 316 316 [])] # "body")]); (A "}" 1049 3118 3119 319 319 [])] # "body")]); (B "method_declaration" 1050 3124 3158 322 322 [(B "void_type" 1051 3124 3128 322 322 [] # "type"); (B "identifier" 1052 3129 3138 322 322 [] # "name"); (B "formal_parameters" 1053 3138 3157 322 322 [(A "(" 1054 3138 3139 322 322 []); (B "formal_parameter" 1055 3139 3156 322 322 [(B "type_identifier" 1056 3139 3145 322 322 [] # "type"); (B "identifier" 1057 3146 3156 322 322 [] # "name")]); (A ")" 1058 3156 3157 322 322 [])] # "parameters"); (A ";" 1059 3157 3158 322 322 [])]); (A "}" 1060 3160 3161 324 324 [])] # "body")])]).
Example prettier80_EmptyLine : as_expected prettier80_EmptyLine_source prettier80_EmptyLine_tree (U "class EmptyLine {
  String a;

  String b;

  enum NUMBER {
  }
  void blockStatement() {
  }

  void variableDeclarations() {
    Integer a = 1;

    Integer b = 1 + 1, c = 2 + 2;

    Integer d = 1, e = 2;

    Integer a;

    Integer g = 1;
    Integer e = 2;
    Integer h = 4;

    Integer y, z;
    Integer x = 1;
    y = 2;
    z = 3;

    Integer x = 1;
    y = 2;
    z = 3;

    Integer i = 1, k = 2, l = 1;

    Integer f = 1;
  }

  void expressionStatement() {
    i++;

    i--;
  }
  void blockStatementWithoutEmptyLine() {
  }
  void dmlInsert() {
    insert a;

    insert a;

    insert b;
    insert c;
  }

  void dmlUpdate() {
    update a;

    update a;

    update b;
    update c;
  }

  void dmlUpsert() {
    upsert a;

    upsert a;

    upsert b;
    upsert c;
  }

  void dmlDelete() {
    delete a;

    delete a;

    delete b;
    delete c;
  }

  void dmlUndelete() {
    undelete a;

    undelete a;

    undelete b;
    undelete c;
  }

  void dmlMerge() {
    merge a b;

    merge a b;

    merge a b;
    merge a b;
  }

  void returnStatement() {
    return a;

    return a;

    return a;
    return a;
  }

  void throwStatement() {
    throw a;

    throw a;

    throw a;
    throw a;
  }

  void breakStatement() {
    while (true) {
      break;

      break;

      break;
      break;
    }
  }

  void continueStatement() {
    while (true) {
      continue;

      continue;

      continue;
      continue;
    }
  }

  void ifElseBlock() {
    Integer a = 1;
    if (a == 1) {
    } else if (a == 2) {
    } else {
    }

    if (a == 1) {
    } else if (a == 2) {
    } else {
    }

    if (a == 1) {
    } else if (a == 2) {
    } else {
    }

    if (a == 1) {
    }
  }

  void tryCatchBlock() {
    try {
    } catch (Exception e) {
    } finally {
    }

    try {
    } catch (Exception e) {
    } finally {
    }

    try {
    } catch (Exception e) {
    } finally {
    }
  }

  void forLoop() {
    for (String a : listA) {
    }

    for (String a : listA) {
    }

    for (String a : listA) {
    }
  }

  void whileLoop() {
    while (i < 5) {
    }

    while (i < 5) {
    }

    while (i < 5) {
    }
  }

  void doLoop() {
    do {
    } while (i < 5);

    do {
    } while (i < 5);

    do {
    } while (i < 5);
  }

  class ClassDeclaration {
    class InnerClassMember {
    }

    class InnerClassMemberTwo {
    }
  }

  class InnerClassTwo {
    interface InnerInterfaceMember {
    }

    interface InnerInterfaceMemberTwo {
    }
  }

  class InnerClassThree {
    enum InnerEnumMember {
    }

    enum InnerEnumMemberTwo {
    }
  }

  class InnerClassFour {
    String propertyMember { get; set; }

    String propertyMemberTwo { get; set; }
  }

  class InnerClassFive {
    String fieldMember;

    String fieldMemberTwo;
  }

  interface InterfaceDeclaration {
  }

  void switchStatement() {
    switch on i {
      when 1 {
        System.debug('One');
      }
    }

    switch on i {
      when 1 {
      }
    }

    switch on i {
      when 1 {
      }
    }
  }

  void methodTwo(String testString);
}
").
Proof. apply run_test_ok. vm_compute. reflexivity. Qed.

(* tests/prettier80/Enum.in *)
Definition prettier80_Enum_source : ustr := U "class EnumTest {
  public enum Season {WINTER, SPRING, SUMMER, FALL}
  enum Month {JANUARY, FEBRUARY, MARCH, APRIL, MAY, JUNE, JULY, AUGUST, SEPTEMBER, OCTOBER, NOVEMBER, DECEMBER}

  @TestVisible
  private enum AccountTypeOne {
    BUSINESS_ACCOUNT,
    PERSON_ACCOUNT
  }

  @TestVisible
  public enum AccountTypeTwo {
    BUSINESS_ACCOUNT,
    PERSON_ACCOUNT
  }

  @TestVisible
  public static enum AccountTypeTwo {
    BUSINESS_ACCOUNT,
    PERSON_ACCOUNT
  }

  @TestVisible
  enum AccountTypeThree {
    BUSINESS_ACCOUNT,
    PERSON_ACCOUNT
  }

  void enumTest() {
    Integer i = Season.WINTER.ordinal();
    String s = Season.SPRING.name();
    Season[] values = Season.values();
  }
}

".
Definition prettier80_Enum_tree : span := (B "parser_output" 1 0 697 0 35 [(B "class_declaration" 2 0 695 0 33 [(A "class" 3 0 5 0 0 []); (B "identifier" 4 6 14 0 0 [] # "name"); (B "class_body" 5 15 695 0 33 [(A "{" 6 15 16 0 0 []); (B "enum_declaration" 7 19 68 1 1 [(B "modifiers" 8 19 25 1 1 [(B "modifier" 9 19 25 1 1 [(B "public" 10 19 25 1 1 [(A "public" 11 19 25 1 1 [])])])]); (A "enum" 12 26 30 1 1 []); (B "identifier" 13 31 37 1 1 [] # "name"); (B "enum_body" 14 38 68 1 1 [(A "{" 15 38 39 1 1 []); (B "enum_constant" 16 39 45 1 1 [(B "identifier" 17 39 45 1 1 [] # "name")]); (A "," 18 45 46 1 1 []); (B "enum_constant" 19 47 53 1 1 [(B "identifier" 20 47 53 1 1 [] # "name")]); (A "," 21 53 54 1 1 []); (B "enum_constant" 22 55 61 1 1 [(B "identifier" 23 55 61 1 1 [] # "name")]); (A "," 24 61 62 1 1 []); (B "enum_constant" 25 63 67 1 1 [(B "identifier" 26 63 67 1 1 [] # "name")]); (A "}" 27 67 68 1 1 [])] # "body")]); (B "enum_declaration" 28 71 180 2 2 [(A "enum" 29 71 75 2 2 []); (B "identifier" 30 76 81 2 2 [] # "name"); (B "enum_body" 31 82 180 2 2 [(A "{" 32 82 83 2 2 []); (B "enum_constant" 33 83 90 2 2 [(B "identifier" 34 83 90 2 2 [] # "name")]); (A "," 35 90 91 2 2 []); (B "enum_constant" 36 92 100 2 2 [(B "identifier" 37 92 100 2 2 [] # "name")]); (A "," 38 100 101 2 2 []); (B "enum_constant" 39 102 107 2 2 [(B "identifier" 40 102 107 2 2 [] # "name")]); (A "," 41 107 108 2 2 []); (B "enum_constant" 42 109 114 2 2 [(B "identifier" 43 109 114 2 2 [] # "name")]); (A "," 44 114 115 2 2 []); (B "enum_constant" 45 116 119 2 2 [(B "identifier" 46 116 119 2 2 [] # "name")]); (A "," 47 119 120 2 2 []); (B "enum_constant" 48 121 125 2 2 [(B "identifier" 49 121 125 2 2 [] # "name")]); (A "," 50 125 126 2 2 []); (B "enum_constant" 51 127 131 2 2 [(B "identifier" 52 127 131 2 2 [] # "name")]); (A "," 53 131 132 2 2 []); (B "enum_constant" 54 133 139 2 2 [(B "identifier" 55 133 139 2 2 [] # "name")]); (A "," 56 139 140 2 2 []); (B "enum_constant" 57 141 150 2 2 [(B "identifier" 58 141 150 2 2 [] # "name")]); (A "," 59 150 151 2 2 []); (B "enum_constant" 60 152 159 2 2 [(B "identifier" 61 152 159 2 2 [] # "name")]); (A "," 62 159 160 2 2 []); (B "enum_constant" 63 161 169 2 2 [(B "identifier" 64 161 169 2 2 [] # "name")]); (A "," 65 169 170 2 2 []); (B "enum_constant" 66 171 179 2 2 [(B "identifier" 67 171 179 2 2 [] # "name")]); (A "}" 68 179 180 2 2 [])] # "body")]); (B "enum_declaration" 69 184 273 4 8 [(B "modifiers" 70 184 206 4 5 [(B "annotation" 71 184 196 4 4 [(A "@" 72 184 185 4 4 []); (B "identifier" 73 185 196 4 4 [] # "name")]); (B "modifier" 74 199 206 5 5 [(B "private" 75 199 206 5 5 [(A "private" 76 199 206 5 5 [])])])]); (A "enum" 77 207 211 5 5 []); (B "identifier" 78 212 226 5 5 [] # "name"); (B "enum_body" 79 227 273 5 8 [(A "{" 80 227 228 5 5 []); (B "enum_constant" 81 233 249 6 6 [(B "identifier" 82 233 249 6 6 [] # "name")]); (A "," 83 249 250 6 6 []); (B "enum_constant" 84 255 269 7 7 [(B "identifier" 85 255 269 7 7 [] # "name")]); (A "}" 86 272 273 8 8 [])] # "body")]); (B "enum_declaration" 87 277 365 10 14 [(B "modifiers" 88 277 298 10 11 [(B "annotation" 89 277 289 10 10 [(A "@" 90 277 278 10 10 []); (B "identifier" 91 278 289 10 10 [] # "name")]); (B "modifier" 92 292 298 11 11 [(B "public" 93 292 298 11 11 [(A "public" 94 292 298 11 11 [])])])]); (A "enum" 95 299 303 11 11 []); (B "identifier" 96 304 318 11 11 [] # "name"); (B "enum_body" 97 319 365 11 14 [(A "{" 98 319 320 11 11 []); (B "enum_constant" 99 325 341 12 12 [(B "identifier" 100 325 341 12 12 [] # "name")]); (A "," 101 341 342 12 12 []); (B "enum_constant" 102 347 361 13 13 [(B "identifier" 103 347 361 13 13 [] # "name")]); (A "}" 104 364 365 14 14 [])] # "body")]); (B "enum_declaration" 105 369 464 16 20 [(B "modifiers" 106 369 397 16 17 [(B "annotation" 107 369 381 16 16 [(A "@" 108 369 370 16 16 []); (B "identifier" 109 370 381 16 16 [] # "name")]); (B "modifier" 110 384 390 17 17 [(B "public" 111 384 390 17 17 [(A "public" 112 384 390 17 17 [])])]); (B "modifier" 113 391 397 17 17 [(B "static" 114 391 397 17 17 [(A "static" 115 391 397 17 17 [])])])]); (A "enum" 116 398 402 17 17 []); (B "identifier" 117 403 417 17 17 [] # "name"); (B "enum_body" 118 418 464 17 20 [(A "{" 119 418 419 17 17 []); (B "enum_constant" 120 424 440 18 18 [(B "identifier" 121 424 440 18 18 [] # "name")]); (A "," 122 440 441 18 18 []); (B "enum_constant" 123 446 460 19 19 [(B "identifier" 124 446 460 19 19 [] # "name")]); (A "}" 125 463 464 20 20 [])] # "body")]); (B "enum_declaration" 126 468 551 22 26 [(B "modifiers" 127 468 480 22 22 [(B "annotation" 128 468 480 22 22 [(A "@" 129 468 469 22 22 []); (B "identifier" 130 469 480 22 22 [] # "name")])]); (A "enum" 131 483 487 23 23 []); (B "identifier" 132 488 504 23 23 [] # "name"); (B "enum_body" 133 505 551 23 26 [(A "{" 134 505 506 23 23 []); (B "enum_constant" 135 511 527 24 24 [(B "identifier" 136 511 527 24 24 [] # "name")]); (A "," 137 527 528 24 24 []); (B "enum_constant" 138 533 547 25 25 [(B "identifier" 139 533 547 25 25 [] # "name")]); (A "}" 140 550 551 26 26 [])] # "body")]); (B "method_declaration" 141 555 693 28 32 [(B "void_type" 142 555 559 28 28 [] # "type"); (B "identifier" 143 560 568 28 28 [] # "name"); (B "formal_parameters" 144 568 570 28 28 [(A "(" 145 568 569 28 28 []); (A ")" 146 569 570 28 28 [])] # "parameters"); (B "block" 147 571 693 28 32 [(A "{" 148 571 572 28 28 []); (B "local_variable_declaration" 149 577 613 29 29 [(B "type_identifier" 150 577 584 29 29 [] # "type"); (B "variable_declarator" 151 585 612 29 29 [(B "identifier" 152 585 586 29 29 [] # "name"); (B "assignment_operator" 153 587 588 29 29 [(A "=" 154 587 588 29 29 [])]); (B "method_invocation" 155 589 612 29 29 [(B "field_access" 156 589 602 29 29 [(B "identifier" 157 589 595 29 29 [] # "object"); (A "." 158 595 596 29 29 []); (B "identifier" 159 596 602 29 29 [] # "field")] # "object"); (A "." 160 602 603 29 29 []); (B "identifier" 161 603 610 29 29 [] # "name"); (B "argument_list" 162 610 612 29 29 [(A "(" 163 610 611 29 29 []); (A ")" 164 611 612 29 29 [])] # "arguments")] # "value")] # "declarator"); (A ";" 165 612 613 29 29 [])]); (B "local_variable_declaration" 166 618 650 30 30 [(B "type_identifier" 167 618 624 30 30 [] # "type"); (B "variable_declarator" 168 625 649 30 30 [(B "identifier" 169 625 626 30 30 [] # "name"); (B "assignment_operator" 170 627 628 30 30 [(A "=" 171 627 628 30 30 [])]); (B "method_invocation" 172 629 649 30 30 [(B "field_access" 173 629 642 30 30 [(B "identifier" 174 629 635 30 30 [] # "object"); (A "." 175 635 636 30 30 []); (B "identifier" 176 636 642 30 30 [] # "field")] # "object"); (A "." 177 642 643 30 30 []); (B "identifier" 178 643 647 30 30 [] # "name"); (B "argument_list" 179 647 649 30 30 [(A "(" 180 647 648 30 30 []); (A ")" 181 648 649 30 30 [])] # "arguments")] # "value")] # "declarator"); (A ";" 182 649 650 30 30 [])]); (B "local_variable_declaration" 183 655 689 31 31 [(B "array_type" 184 655 663 31 31 [(B "type_identifier" 185 655 661 31 31 [] # "element"); (B "dimensions" 186 661 663 31 31 [(A "[" 187 661 662 31 31 []); (A "]" 188 662 663 31 31 [])] # "dimensions")] # "type"); (B "variable_declarator" 189 664 688 31 31 [(B "identifier" 190 664 670 31 31 [] # "name"); (B "assignment_operator" 191 671 672 31 31 [(A "=" 192 671 672 31 31 [])]); (B "method_invocation" 193 673 688 31 31 [(B "identifier" 194 673 679 31 31 [] # "object"); (A "." 195 679 680 31 31 []); (B "identifier" 196 680 686 31 31 [] # "name"); (B "argument_list" 197 686 688 31 31 [(A "(" 198 686 687 31 31 []); (A ")" 199 687 688 31 31 [])] # "arguments")] # "value")] # "declarator"); (A ";" 200 688 689 31 31 [])]); (A "}" 201 692 693 32 32 [])] # "body")]); (A "}" 202 694 695 33 33 [])] # "body")])]).
Example prettier80_Enum : as_expected prettier80_Enum_source prettier80_Enum_tree (U "class EnumTest {
  public enum Season {
    WINTER,
    SPRING,
    SUMMER,
    FALL
  }
  enum Month {
    JANUARY,
    FEBRUARY,
    MARCH,
    APRIL,
    MAY,
    JUNE,
    JULY,
    AUGUST,
    SEPTEMBER,
    OCTOBER,
    NOVEMBER,
    DECEMBER
  }

  @TestVisible
  private enum AccountTypeOne {
    BUSINESS_ACCOUNT,
    PERSON_ACCOUNT
  }

  @TestVisible
  public enum AccountTypeTwo {
    BUSINESS_ACCOUNT,
    PERSON_ACCOUNT
  }

  @TestVisible
  public static enum AccountTypeTwo {
    BUSINESS_ACCOUNT,
    PERSON_ACCOUNT
  }

  @TestVisible
  enum AccountTypeThree {
    BUSINESS_ACCOUNT,
    PERSON_ACCOUNT
  }

  void enumTest() {
    Integer i = Season.WINTER.ordinal();
    String s = Season.SPRING.name();
    Season[] values = Season.values();
  }
}
").
Proof. apply run_test_ok. vm_compute. reflexivity. Qed.

(* tests/prettier80/EnumClass.in *)
Definition prettier80_EnumClass_source : ustr := U "public enum MyEnumClass { X, Y }
".
Definition prettier80_EnumClass_tree : span := (B "parser_output" 1 0 33 0 1 [(B "enum_declaration" 2 0 32 0 0 [(B "modifiers" 3 0 6 0 0 [(B "modifier" 4 0 6 0 0 [(B "public" 5 0 6 0 0 [(A "public" 6 0 6 0 0 [])])])]); (A "enum" 7 7 11 0 0 []); (B "identifier" 8 12 23 0 0 [] # "name"); (B "enum_body" 9 24 32 0 0 [(A "{" 10 24 25 0 0 []); (B "enum_constant" 11 26 27 0 0 [(B "identifier" 12 26 27 0 0 [] # "name")]); (A "," 13 27 28 0 0 []); (B "enum_constant" 14 29 30 0 0 [(B "identifier" 15 29 30 0 0 [] # "name")]); (A "}" 16 31 32 0 0 [])] # "body")])]).
Example prettier80_EnumClass : as_expected prettier80_EnumClass_source prettier80_EnumClass_tree (U "public enum MyEnumClass {
  X,
  Y
}
").
Proof. apply run_test_ok. vm_compute. reflexivity. Qed.

(* tests/prettier80/ExceptionClass.in *)
Definition prettier80_ExceptionClass_source : ustr := U "class ExceptionClass {
  void throwTestTest() {
    throw new CustomException('Custom Exception');

    Exception e = new Exception();
    throw new CustomException('Custom Inner Exception', e);
  }

  void tryCatchTest() {
    try {

    } catch (Exception e) {

    } finally {

    }

    try {
      Integer i = 0;
      i++;
    } catch (CustomException e) {
      System.debug('Oh no');
      throw new AnotherCustomException('Yikes', e);
    } finally {
      System.debug('It has been dealt with');
    }

    try {
      Integer i = 0;
      i++;
    } catch (CustomException e) {
      System.debug('first custom exception');
      throw new AnotherCustomException('Yikes', e);
    } catch (Exception e) {
      System.debug('general exception');
    } finally {
      System.debug('It has been dealt with');
    }

    try {
      System.debug('try without catch');
    } finally {
      System.debug('finally without catch');
    }
    try {
      System.debug('try without finally');
    } catch (Exception ex) {
      System.debug('catch without finally');
    }
  }

  class CustomException extends Exception {}
  class AnotherCustomException extends Exception {}
}

".
Definition prettier80_ExceptionClass_tree : span := (B "parser_output" 1 0 1182 0 55 [(B "class_declaration" 2 0 1180 0 53 [(A "class" 3 0 5 0 0 []); (B "identifier" 4 6 20 0 0 [] # "name"); (B "class_body" 5 21 1180 0 53 [(A "{" 6 21 22 0 0 []); (B "method_declaration" 7 25 198 1 6 [(B "void_type" 8 25 29 1 1 [] # "type"); (B "identifier" 9 30 43 1 1 [] # "name"); (B "formal_parameters" 10 43 45 1 1 [(A "(" 11 43 44 1 1 []); (A ")" 12 44 45 1 1 [])] # "parameters"); (B "block" 13 46 198 1 6 [(A "{" 14 46 47 1 1 []); (B "throw_statement" 15 52 98 2 2 [(A "throw" 16 52 57 2 2 []); (B "object_creation_expression" 17 58 97 2 2 [(A "new" 18 58 61 2 2 []); (B "type_identifier" 19 62 77 2 2 [] # "type"); (B "argument_list" 20 77 97 2 2 [(A "(" 21 77 78 2 2 []); (B "string_literal" 22 78 96 2 2 []); (A ")" 23 96 97 2 2 [])] # "arguments")]); (A ";" 24 97 98 2 2 [])]); (B "local_variable_declaration" 25 104 134 4 4 [(B "type_identifier" 26 104 113 4 4 [] # "type"); (B "variable_declarator" 27 114 133 4 4 [(B "identifier" 28 114 115 4 4 [] # "name"); (B "assignment_operator" 29 116 117 4 4 [(A "=" 30 116 117 4 4 [])]); (B "object_creation_expression" 31 118 133 4 4 [(A "new" 32 118 121 4 4 []); (B "type_identifier" 33 122 131 4 4 [] # "type"); (B "argument_list" 34 131 133 4 4 [(A "(" 35 131 132 4 4 []); (A ")" 36 132 133 4 4 [])] # "arguments")] # "value")] # "declarator"); (A ";" 37 133 134 4 4 [])]); (B "throw_statement" 38 139 194 5 5 [(A "throw" 39 139 144 5 5 []); (B "object_creation_expression" 40 145 193 5 5 [(A "new" 41 145 148 5 5 []); (B "type_identifier" 42 149 164 5 5 [] # "type"); (B "argument_list" 43 164 193 5 5 [(A "(" 44 164 165 5 5 []); (B "string_literal" 45 165 189 5 5 []); (A "," 46 189 190 5 5 []); (B "identifier" 47 191 192 5 5 []); (A ")" 48 192 193 5 5 [])] # "arguments")]); (A ";" 49 193 194 5 5 [])]); (A "}" 50 197 198 6 6 [])] # "body")]); (B "method_declaration" 51 202 1080 8 49 [(B "void_type" 52 202 206 8 8 [] # "type"); (B "identifier" 53 207 219 8 8 [] # "name"); (B "formal_parameters" 54 219 221 8 8 [(A "(" 55 219 220 8 8 []); (A ")" 56 220 221 8 8 [])] # "parameters"); (B "block" 57 222 1080 8 49 [(A "{" 58 222 223 8 8 []); (B "try_statement" 59 228 286 9 15 [(A "try" 60 228 231 9 9 []); (B "block" 61 232 240 9 11 [(A "{" 62 232 233 9 9 []); (A "}" 63 239 240 11 11 [])] # "body"); (B "catch_clause" 64 241 269 11 13 [(A "catch" 65 241 246 11 11 []); (A "(" 66 247 248 11 11 []); (B "formal_parameter" 67 248 259 11 11 [(B "type_identifier" 68 248 257 11 11 [] # "type"); (B "identifier" 69 258 259 11 11 [] # "name")]); (A ")" 70 259 260 11 11 []); (B "block" 71 261 269 11 13 [(A "{" 72 261 262 11 11 []); (A "}" 73 268 269 13 13 [])] # "body")]); (B "finally_clause" 74 270 286 13 15 [(A "finally" 75 270 277 13 13 []); (B "block" 76 278 286 13 15 [(A "{" 77 278 279 13 13 []); (A "}" 78 285 286 15 15 [])])])]); (B "try_statement" 79 292 512 17 25 [(A "try" 80 292 295 17 17 []); (B "block" 81 296 335 17 20 [(A "{" 82 296 297 17 17 []); (B "local_variable_declaration" 83 304 318 18 18 [(B "type_identifier" 84 304 311 18 18 [] # "type"); (B "variable_declarator" 85 312 317 18 18 [(B "identifier" 86 312 313 18 18 [] # "name"); (B "assignment_operator" 87 314 315 18 18 [(A "=" 88 314 315 18 18 [])]); (B "int" 89 316 317 18 18 [] # "value")] # "declarator"); (A ";" 90 317 318 18 18 [])]); (B "expression_statement" 91 325 329 19 19 [(B "update_expression" 92 325 328 19 19 [(B "identifier" 93 325 326 19 19 [] # "operand"); (A "++" 94 326 328 19 19 [] # "operator")]); (A ";" 95 328 329 19 19 [])]); (A "}" 96 334 335 20 20 [])] # "body"); (B "catch_clause" 97 336 450 20 23 [(A "catch" 98 336 341 20 20 []); (A "(" 99 342 343 20 20 []); (B "formal_parameter" 100 343 360 20 20 [(B "type_identifier" 101 343 358 20 20 [] # "type"); (B "identifier" 102 359 360 20 20 [] # "name")]); (A ")" 103 360 361 20 20 []); (B "block" 104 362 450 20 23 [(A "{" 105 362 363 20 20 []); (B "expression_statement" 106 370 392 21 21 [(B "method_invocation" 107 370 391 21 21 [(B "identifier" 108 370 376 21 21 [] # "object"); (A "." 109 376 377 21 21 []); (B "identifier" 110 377 382 21 21 [] # "name"); (B "argument_list" 111 382 391 21 21 [(A "(" 112 382 383 21 21 []); (B "string_literal" 113 383 390 21 21 []); (A ")" 114 390 391 21 21 [])] # "arguments")]); (A ";" 115 391 392 21 21 [])]); (B "throw_statement" 116 399 444 22 22 [(A "throw" 117 399 404 22 22 []); (B "object_creation_expression" 118 405 443 22 22 [(A "new" 119 405 408 22 22 []); (B "type_identifier" 120 409 431 22 22 [] # "type"); (B "argument_list" 121 431 443 22 22 [(A "(" 122 431 432 22 22 []); (B "string_literal" 123 432 439 22 22 []); (A "," 124 439 440 22 22 []); (B "identifier" 125 441 442 22 22 []); (A ")" 126 442 443 22 22 [])] # "arguments")]); (A ";" 127 443 444 22 22 [])]); (A "}" 128 449 450 23 23 [])] # "body")]); (B "finally_clause" 129 451 512 23 25 [(A "finally" 130 451 458 23 23 []); (B "block" 131 459 512 23 25 [(A "{" 132 459 460 23 23 []); (B "expression_statement" 133 467 506 24 24 [(B "method_invocation" 134 467 505 24 24 [(B "identifier" 135 467 473 24 24 [] # "object"); (A "." 136 473 474 24 24 []); (B "identifier" 137 474 479 24 24 [] # "name"); (B "argument_list" 138 479 505 24 24 [(A "(" 139 479 480 24 24 []); (B "string_literal" 140 480 504 24 24 []); (A ")" 141 504 505 24 24 [])] # "arguments")]); (A ";" 142 505 506 24 24 [])]); (A "}" 143 511 512 25 25 [])])])]); (B "try_statement" 144 518 824 27 37 [(A "try" 145 518 521 27 27 []); (B "block" 146 522 561 27 30 [(A "{" 147 522 523 27 27 []); (B "local_variable_declaration" 148 530 544 28 28 [(B "type_identifier" 149 530 537 28 28 [] # "type"); (B "variable_declarator" 150 538 543 28 28 [(B "identifier" 151 538 539 28 28 [] # "name"); (B "assignment_operator" 152 540 541 28 28 [(A "=" 153 540 541 28 28 [])]); (B "int" 154 542 543 28 28 [] # "value")] # "declarator"); (A ";" 155 543 544 28 28 [])]); (B "expression_statement" 156 551 555 29 29 [(B "update_expression" 157 551 554 29 29 [(B "identifier" 158 551 552 29 29 [] # "operand"); (A "++" 159 552 554 29 29 [] # "operator")]); (A ";" 160 554 555 29 29 [])]); (A "}" 161 560 561 30 30 [])] # "body"); (B "catch_clause" 162 562 693 30 33 [(A "catch" 163 562 567 30 30 []); (A "(" 164 568 569 30 30 []); (B "formal_parameter" 165 569 586 30 30 [(B "type_identifier" 166 569 584 30 30 [] # "type"); (B "identifier" 167 585 586 30 30 [] # "name")]); (A ")" 168 586 587 30 30 []); (B "block" 169 588 693 30 33 [(A "{" 170 588 589 30 30 []); (B "expression_statement" 171 596 635 31 31 [(B "method_invocation" 172 596 634 31 31 [(B "identifier" 173 596 602 31 31 [] # "object"); (A "." 174 602 603 31 31 []); (B "identifier" 175 603 608 31 31 [] # "name"); (B "argument_list" 176 608 634 31 31 [(A "(" 177 608 609 31 31 []); (B "string_literal" 178 609 633 31 31 []); (A ")" 179 633 634 31 31 [])] # "arguments")]); (A ";" 180 634 635 31 31 [])]); (B "throw_statement" 181 642 687 32 32 [(A "throw" 182 642 647 32 32 []); (B "object_creation_expression" 183 648 686 32 32 [(A "new" 184 648 651 32 32 []); (B "type_identifier" 185 652 674 32 32 [] # "type"); (B "argument_list" 186 674 686 32 32 [(A "(" 187 674 675 32 32 []); (B "string_literal" 188 675 682 32 32 []); (A "," 189 682 683 32 32 []); (B "identifier" 190 684 685 32 32 []); (A ")" 191 685 686 32 32 [])] # "arguments")]); (A ";" 192 686 687 32 32 [])]); (A "}" 193 692 693 33 33 [])] # "body")]); (B "catch_clause" 194 694 762 33 35 [(A "catch" 195 694 699 33 33 []); (A "(" 196 700 701 33 33 []); (B "formal_parameter" 197 701 712 33 33 [(B "type_identifier" 198 701 710 33 33 [] # "type"); (B "identifier" 199 711 712 33 33 [] # "name")]); (A ")" 200 712 713 33 33 []); (B "block" 201 714 762 33 35 [(A "{" 202 714 715 33 33 []); (B "expression_statement" 203 722 756 34 34 [(B "method_invocation" 204 722 755 34 34 [(B "identifier" 205 722 728 34 34 [] # "object"); (A "." 206 728 729 34 34 []); (B "identifier" 207 729 734 34 34 [] # "name"); (B "argument_list" 208 734 755 34 34 [(A "(" 209 734 735 34 34 []); (B "string_literal" 210 735 754 34 34 []); (A ")" 211 754 755 34 34 [])] # "arguments")]); (A ";" 212 755 756 34 34 [])]); (A "}" 213 761 762 35 35 [])] # "body")]); (B "finally_clause" 214 763 824 35 37 [(A "finally" 215 763 770 35 35 []); (B "block" 216 771 824 35 37 [(A "{" 217 771 772 35 35 []); (B "expression_statement" 218 779 818 36 36 [(B "method_invocation" 219 779 817 36 36 [(B "identifier" 220 779 785 36 36 [] # "object"); (A "." 221 785 786 36 36 []); (B "identifier" 222 786 791 36 36 [] # "name"); (B "argument_list" 223 791 817 36 36 [(A "(" 224 791 792 36 36 []); (B "string_literal" 225 792 816 36 36 []); (A ")" 226 816 817 36 36 [])] # "arguments")]); (A ";" 227 817 818 36 36 [])]); (A "}" 228 823 824 37 37 [])])])]); (B "try_statement" 229 830 943 39 43 [(A "try" 230 830 833 39 39 []); (B "block" 231 834 882 39 41 [(A "{" 232 834 835 39 39 []); (B "expression_statement" 233 842 876 40 40 [(B "method_invocation" 234 842 875 40 40 [(B "identifier" 235 842 848 40 40 [] # "object"); (A "." 236 848 849 40 40 []); (B "identifier" 237 849 854 40 40 [] # "name"); (B "argument_list" 238 854 875 40 40 [(A "(" 239 854 855 40 40 []); (B "string_literal" 240 855 874 40 40 []); (A ")" 241 874 875 40 40 [])] # "arguments")]); (A ";" 242 875 876 40 40 [])]); (A "}" 243 881 882 41 41 [])] # "body"); (B "finally_clause" 244 883 943 41 43 [(A "finally" 245 883 890 41 41 []); (B "block" 246 891 943 41 43 [(A "{" 247 891 892 41 41 []); (B "expression_statement" 248 899 937 42 42 [(B "method_invocation" 249 899 936 42 42 [(B "identifier" 250 899 905 42 42 [] # "object"); (A "." 251 905 906 42 42 []); (B "identifier" 252 906 911 42 42 [] # "name"); (B "argument_list" 253 911 936 42 42 [(A "(" 254 911 912 42 42 []); (B "string_literal" 255 912 935 42 42 []); (A ")" 256 935 936 42 42 [])] # "arguments")]); (A ";" 257 936 937 42 42 [])]); (A "}" 258 942 943 43 43 [])])])]); (B "try_statement" 259 948 1076 44 48 [(A "try" 260 948 951 44 44 []); (B "block" 261 952 1002 44 46 [(A "{" 262 952 953 44 44 []); (B "expression_statement" 263 960 996 45 45 [(B "method_invocation" 264 960 995 45 45 [(B "identifier" 265 960 966 45 45 [] # "object"); (A "." 266 966 967 45 45 []); (B "identifier" 267 967 972 45 45 [] # "name"); (B "argument_list" 268 972 995 45 45 [(A "(" 269 972 973 45 45 []); (B "string_literal" 270 973 994 45 45 []); (A ")" 271 994 995 45 45 [])] # "arguments")]); (A ";" 272 995 996 45 45 [])]); (A "}" 273 1001 1002 46 46 [])] # "body"); (B "catch_clause" 274 1003 1076 46 48 [(A "catch" 275 1003 1008 46 46 []); (A "(" 276 1009 1010 46 46 []); (B "formal_parameter" 277 1010 1022 46 46 [(B "type_identifier" 278 1010 1019 46 46 [] # "type"); (B "identifier" 279 1020 1022 46 46 [] # "name")]); (A ")" 280 1022 1023 46 46 []); (B "block" 281 1024 1076 46 48 [(A "{" 282 1024 1025 46 46 []); (B "expression_statement" 283 1032 1070 47 47 [(B "method_invocation" 284 1032 1069 47 47 [(B "identifier" 285 1032 1038 47 47 [] # "object"); (A "." 286 1038 1039 47 47 []); (B "identifier" 287 1039 1044 47 47 [] # "name"); (B "argument_list" 288 1044 1069 47 47 [(A "(" 289 1044 1045 47 47 []); (B "string_literal" 290 1045 1068 47 47 []); (A ")" 291 1068 1069 47 47 [])] # "arguments")]); (A ";" 292 1069 1070 47 47 [])]); (A "}" 293 1075 1076 48 48 [])] # "body")])]); (A "}" 294 1079 1080 49 49 [])] # "body")]); (B "class_declaration" 295 1084 1126 51 51 [(A "class" 296 1084 1089 51 51 []); (B "identifier" 297 1090 1105 51 51 [] # "name"); (B "superclass" 298 1106 1123 51 51 [(A "extends" 299 1106 1113 51 51 []); (B "type_identifier" 300 1114 1123 51 51 [])]); (B "class_body" 301 1124 1126 51 51 [(A "{" 302 1124 1125 51 51 []); (A "}" 303 1125 1126 51 51 [])] # "body")]); (B "class_declaration" 304 1129 1178 52 52 [(A "class" 305 1129 1134 52 52 []); (B "identifier" 306 1135 1157 52 52 [] # "name"); (B "superclass" 307 1158 1175 52 52 [(A "extends" 308 1158 1165 52 52 []); (B "type_identifier" 309 1166 1175 52 52 [])]); (B "class_body" 310 1176 1178 52 52 [(A "{" 311 1176 1177 52 52 []); (A "}" 312 1177 1178 52 52 [])] # "body")]); (A "}" 313 1179 1180 53 53 [])] # "body")])]).
Example prettier80_ExceptionClass : as_expected prettier80_ExceptionClass_source prettier80_ExceptionClass_tree (U "class ExceptionClass {
  void throwTestTest() {
    throw new CustomException('Custom Exception');

    Exception e = new Exception();
    throw new CustomException('Custom Inner Exception', e);
  }

  void tryCatchTest() {
    try {
    } catch (Exception e) {
    } finally {
    }

    try {
      Integer i = 0;
      i++;
    } catch (CustomException e) {
      System.debug('Oh no');
      throw new AnotherCustomException('Yikes', e);
    } finally {
      System.debug('It has been dealt with');
    }

    try {
      Integer i = 0;
      i++;
    } catch (CustomException e) {
      System.debug('first custom exception');
      throw new AnotherCustomException('Yikes', e);
    } catch (Exception e) {
      System.debug('general exception');
    } finally {
      System.debug('It has been dealt with');
    }

    try {
      System.debug('try without catch');
    } finally {
      System.debug('finally without catch');
    }
    try {
      System.debug('try without finally');
    } catch (Exception ex) {
      System.debug('catch without finally');
    }
  }

  class CustomException extends Exception {
  }
  class AnotherCustomException extends Exception {
  }
}
").
Proof. apply run_test_ok. vm_compute. reflexivity. Qed.

(* tests/prettier80/ExpressionClass.in *)
Definition prettier80_ExpressionClass_source : ustr := U "class Conditional extends Object {
  void assignmentExpression() {
    Integer i = 0;
    Integer j = 1;
    if (i = j) {}
    if (i &= j) {}
    if (i |= j) {}
    if (i ^= j) {}
    if (i += j) {}
    if (i -= j) {}
    if (i *= j) {}
    if (i /= j) {}
    if (i <<= j) {}
    if (i >>= j) {}
    if (i >>>= j) {}

  }

  void ternaryExpression() {
    Integer a = 2;
    Integer b = 1;
    Integer c = a > b ? a : b;
    a < b ? System.debug('Hi') : System.debug('Hello');
  }

  void binaryExpression() {
    Integer i = 1;
    Integer j = 2;
    Integer a;

    a = i + j;
    a = i - j;
    a = i * j;
    a = i / j;
    a = i << j;
    a = i >> j;
    a = i >>> j;
    a = i ^ j;
    a = i & j;
    a = i | j;
  }


  void castExpression() {
    String a;

    Id b = (Id) a;
    Schema.SObjectType sobjectType = ((Id) a).getSObjectType();

  }

  void instanceOfExpression() {
    SObject o;
    Boolean b = o instanceof Account;
  }

  void booleanExpression() {
    Boolean a = true;
    Boolean b = false;
    Boolean c;

    c = a == b;
    c = a === b;
    c = a !== b;
    c = a != b;
    c = a <> b;
    c = a < b;
    c = a > b;
    c = a <= b;
    c = a >= b;
    c = a && b;
    c = a || b;

  }

  void triggerVariableExpr_inOtherSuite() {}

  void packageVersionExpression() {
    Package.Version.Request;
  }

  void prefixExpression() {
    Integer a = 1;
    Integer b;

    b = +a;
    b = -a;
    b = !a;
    b = ~a;
    b = ++a;
    b = --a;
  }

  void postfixExpression() {
    Integer a = 1;
    Integer b;

    b = a++;
    b = a--;
  }

  void arrayExpression() {
    Integer b;

    b = a[0];
    b = a[a[0]];

    b = 'String Literal'[0];

    String longResult = o[0].callMethod('first param');}

  void variableExpression() {
    Integer a = 1;
    Integer b = 2;
    Integer c = a + b;
  }

  void methodCallExpression() {
    SomeObject o = new SomeObject();

  }

  void javaMethodCallExpression_notNeeded() {}

  void javaVariableExpression_notNeeded() {}

  void superVariableExpression() {
    super.methodCall();
    super.methodCall(1, 2, 3);

  }

  void thisVariableExpression() {
    this.a = 'Hello World';
    System.debug(this.a + this.b);
  }

  void longStaticMethodCallChainExpression() {
  }

  void classRefExpression() {
    System.Type t = Integer.class;
  }

  void literalExpression() {
    String a = 'Hello';
    Integer b = 1;
    Long c = 2147483648L;
    Double d = 0.1d;
    Decimal e = 2.14;
    Boolean f = true;
    Boolean g = false;
    Object h = null;
  }

  void dottedExprMethod() {
    a.Field__c = null;
    a .Field__c = null;}

  void soqlExpression_inOtherSuite() {}

  void soslExpression_inOtherSuite() {}

  class InnerClass extends ExpressionClass {
    InnerClass() {
      this(1);
    }

    InnerClass(Integer i) {
      super(i);
    }
  }
}
".
Definition prettier80_ExpressionClass_tree : span := (B "parser_output" 1 0 2830 0 173 [(B "class_declaration" 2 0 2829 0 172 [(A "class" 3 0 5 0 0 []); (B "identifier" 4 6 17 0 0 [] # "name"); (B "superclass" 5 18 32 0 0 [(A "extends" 6 18 25 0 0 []); (B "type_identifier" 7 26 32 0 0 [])]); (B "class_body" 8 33 2829 0 172 [(A "{" 9 33 34 0 0 []); (B "method_declaration" 10 37 321 1 16 [(B "void_type" 11 37 41 1 1 [] # "type"); (B "identifier" 12 42 62 1 1 [] # "name"); (B "formal_parameters" 13 62 64 1 1 [(A "(" 14 62 63 1 1 []); (A ")" 15 63 64 1 1 [])] # "parameters"); (B "block" 16 65 321 1 16 [(A "{" 17 65 66 1 1 []); (B "local_variable_declaration" 18 71 85 2 2 [(B "type_identifier" 19 71 78 2 2 [] # "type"); (B "variable_declarator" 20 79 84 2 2 [(B "identifier" 21 79 80 2 2 [] # "name"); (B "assignment_operator" 22 81 82 2 2 [(A "=" 23 81 82 2 2 [])]); (B "int" 24 83 84 2 2 [] # "value")] # "declarator"); (A ";" 25 84 85 2 2 [])]); (B "local_variable_declaration" 26 90 104 3 3 [(B "type_identifier" 27 90 97 3 3 [] # "type"); (B "variable_declarator" 28 98 103 3 3 [(B "identifier" 29 98 99 3 3 [] # "name"); (B "assignment_operator" 30 100 101 3 3 [(A "=" 31 100 101 3 3 [])]); (B "int" 32 102 103 3 3 [] # "value")] # "declarator"); (A ";" 33 103 104 3 3 [])]); (B "if_statement" 34 109 122 4 4 [(A "if" 35 109 111 4 4 []); (B "parenthesized_expression" 36 112 119 4 4 [(A "(" 37 112 113 4 4 []); (B "assignment_expression" 38 113 118 4 4 [(B "identifier" 39 113 114 4 4 [] # "left"); (B "assignment_operator" 40 115 116 4 4 [(A "=" 41 115 116 4 4 [])] # "operator"); (B "identifier" 42 117 118 4 4 [] # "right")]); (A ")" 43 118 119 4 4 [])] # "condition"); (B "block" 44 120 122 4 4 [(A "{" 45 120 121 4 4 []); (A "}" 46 121 122 4 4 [])] # "consequence")]); (B "if_statement" 47 127 141 5 5 [(A "if" 48 127 129 5 5 []); (B "parenthesized_expression" 49 130 138 5 5 [(A "(" 50 130 131 5 5 []); (B "assignment_expression" 51 131 137 5 5 [(B "identifier" 52 131 132 5 5 [] # "left"); (B "assignment_operator" 53 133 135 5 5 [(A "&=" 54 133 135 5 5 [])] # "operator"); (B "identifier" 55 136 137 5 5 [] # "right")]); (A ")" 56 137 138 5 5 [])] # "condition"); (B "block" 57 139 141 5 5 [(A "{" 58 139 140 5 5 []); (A "}" 59 140 141 5 5 [])] # "consequence")]); (B "if_statement" 60 146 160 6 6 [(A "if" 61 146 148 6 6 []); (B "parenthesized_expression" 62 149 157 6 6 [(A "(" 63 149 150 6 6 []); (B "assignment_expression" 64 150 156 6 6 [(B "identifier" 65 150 151 6 6 [] # "left"); (B "assignment_operator" 66 152 154 6 6 [(A "|=" 67 152 154 6 6 [])] # "operator"); (B "identifier" 68 155 156 6 6 [] # "right")]); (A ")" 69 156 157 6 6 [])] # "condition"); (B "block" 70 158 160 6 6 [(A "{" 71 158 159 6 6 []); (A "}" 72 159 160 6 6 [])] # "consequence")]); (B "if_statement" 73 165 179 7 7 [(A "if" 74 165 167 7 7 []); (B "parenthesized_expression" 75 168 176 7 7 [(A "(" 76 168 169 7 7 []); (B "assignment_expression" 77 169 175 7 7 [(B "identifier" 78 169 170 7 7 [] # "left"); (B "assignment_operator" 79 171 173 7 7 [(A "^=" 80 171 173 7 7 [])] # "operator"); (B "identifier" 81 174 175 7 7 [] # "right")]); (A ")" 82 175 176 7 7 [])] # "condition"); (B "block" 83 177 179 7 7 [(A "{" 84 177 178 7 7 []); (A "}" 85 178 179 7 7 [])] # "consequence")]); (B "if_statement" 86 184 198 8 8 [(A "if" 87 184 186 8 8 []); (B "parenthesized_expression" 88 187 195 8 8 [(A "(" 89 187 188 8 8 []); (B "assignment_expression" 90 188 194 8 8 [(B "identifier" 91 188 189 8 8 [] # "left"); (B "assignment_operator" 92 190 192 8 8 [(A "+=" 93 190 192 8 8 [])] # "operator"); (B "identifier" 94 193 194 8 8 [] # "right")]); (A ")" 95 194 195 8 8 [])] # "condition"); (B "block" 96 196 198 8 8 [(A "{" 97 196 197 8 8 []); (A "}" 98 197 198 8 8 [])] # "consequence")]); (B "if_statement" 99 203 217 9 9 [(A "if" 100 203 205 9 9 []); (B "parenthesized_expression" 101 206 214 9 9 [(A "(" 102 206 207 9 9 []); (B "assignment_expression" 103 207 213 9 9 [(B "identifier" 104 207 208 9 9 [] # "left"); (B "assignment_operator" 105 209 211 9 9 [(A "-=" 106 209 211 9 9 [])] # "operator"); (B "identifier" 107 212 213 9 9 [] # "right")]); (A ")" 108 213 214 9 9 [])] # "condition"); (B "block" 109 215 217 9 9 [(A "{" 110 215 216 9 9 []); (A "}" 111 216 217 9 9 [])] # "consequence")]); (B "if_statement" 112 222 236 10 10 [(A "if" 113 222 224 10 10 []); (B "parenthesized_expression" 114 225 233 10 10 [(A "(" 115 225 226 10 10 []); (B "assignment_expression" 116 226 232 10 10 [(B "identifier" 117 226 227 10 10 [] # "left"); (B "assignment_operator" 118 228 230 10 10 [(A "*=" 119 228 230 10 10 [])] # "operator"); (B "identifier" 120 231 232 10 10 [] # "right")]); (A ")" 121 232 233 10 10 [])] # "condition"); (B "block" 122 234 236 10 10 [(A "{" 123 234 235 10 10 []); (A "}" 124 235 236 10 10 [])] # "consequence")]); (B "if_statement" 125 241 255 11 11 [(A "if" 126 241 243 11 11 []); (B "parenthesized_expression" 127 244 252 11 11 [(A "(" 128 244 245 11 11 []); (B "assignment_expression" 129 245 251 11 11 [(B "identifier" 130 245 246 11 11 [] # "left"); (B "assignment_operator" 131 247 249 11 11 [(A "/=" 132 247 249 11 11 [])] # "operator"); (B "identifier" 133 250 251 11 11 [] # "right")]); (A ")" 134 251 252 11 11 [])] # "condition"); (B "block" 135 253 255 11 11 [(A "{" 136 253 254 11 11 []); (A "}" 137 254 255 11 11 [])] # "consequence")]); (B "if_statement" 138 260 275 12 12 [(A "if" 139 260 262 12 12 []); (B "parenthesized_expression" 140 263 272 12 12 [(A "(" 141 263 264 12 12 []); (B "assignment_expression" 142 264 271 12 12 [(B "identifier" 143 264 265 12 12 [] # "left"); (B "assignment_operator" 144 266 269 12 12 [(A "<<=" 145 266 269 12 12 [])] # "operator"); (B "identifier" 146 270 271 12 12 [] # "right")]); (A ")" 147 271 272 12 12 [])] # "condition"); (B "block" 148 273 275 12 12 [(A "{" 149 273 274 12 12 []); (A "}" 150 274 275 12 12 [])] # "consequence")]); (B "if_statement" 151 280 295 13 13 [(A "if" 152 280 282 13 13 []); (B "parenthesized_expression" 153 283 292 13 13 [(A "(" 154 283 284 13 13 []); (B "assignment_expression" 155 284 291 13 13 [(B "identifier" 156 284 285 13 13 [] # "left"); (B "assignment_operator" 157 286 289 13 13 [(A ">>=" 158 286 289 13 13 [])] # "operator"); (B "identifier" 159 290 291 13 13 [] # "right")]); (A ")" 160 291 292 13 13 [])] # "condition"); (B "block" 161 293 295 13 13 [(A "{" 162 293 294 13 13 []); (A "}" 163 294 295 13 13 [])] # "consequence")]); (B "if_statement" 164 300 316 14 14 [(A "if" 165 300 302 14 14 []); (B "parenthesized_expression" 166 303 313 14 14 [(A "(" 167 303 304 14 14 []); (B "assignment_expression" 168 304 312 14 14 [(B "identifier" 169 304 305 14 14 [] # "left"); (B "assignment_operator" 170 306 310 14 14 [(A ">>>=" 171 306 310 14 14 [])] # "operator"); (B "identifier" 172 311 312 14 14 [] # "right")]); (A ")" 173 312 313 14 14 [])] # "condition"); (B "block" 174 314 316 14 14 [(A "{" 175 314 315 14 14 []); (A "}" 176 315 316 14 14 [])] # "consequence")]); (A "}" 177 320 321 16 16 [])] # "body")]); (B "method_declaration" 178 325 480 18 23 [(B "void_type" 179 325 329 18 18 [] # "type"); (B "identifier" 180 330 347 18 18 [] # "name"); (B "formal_parameters" 181 347 349 18 18 [(A "(" 182 347 348 18 18 []); (A ")" 183 348 349 18 18 [])] # "parameters"); (B "block" 184 350 480 18 23 [(A "{" 185 350 351 18 18 []); (B "local_variable_declaration" 186 356 370 19 19 [(B "type_identifier" 187 356 363 19 19 [] # "type"); (B "variable_declarator" 188 364 369 19 19 [(B "identifier" 189 364 365 19 19 [] # "name"); (B "assignment_operator" 190 366 367 19 19 [(A "=" 191 366 367 19 19 [])]); (B "int" 192 368 369 19 19 [] # "value")] # "declarator"); (A ";" 193 369 370 19 19 [])]); (B "local_variable_declaration" 194 375 389 20 20 [(B "type_identifier" 195 375 382 20 20 [] # "type"); (B "variable_declarator" 196 383 388 20 20 [(B "identifier" 197 383 384 20 20 [] # "name"); (B "assignment_operator" 198 385 386 20 20 [(A "=" 199 385 386 20 20 [])]); (B "int" 200 387 388 20 20 [] # "value")] # "declarator"); (A ";" 201 388 389 20 20 [])]); (B "local_variable_declaration" 202 394 420 21 21 [(B "type_identifier" 203 394 401 21 21 [] # "type"); (B "variable_declarator" 204 402 419 21 21 [(B "identifier" 205 402 403 21 21 [] # "name"); (B "assignment_operator" 206 404 405 21 21 [(A "=" 207 404 405 21 21 [])]); (B "ternary_expression" 208 406 419 21 21 [(B "binary_expression" 209 406 411 21 21 [(B "identifier" 210 406 407 21 21 [] # "left"); (A ">" 211 408 409 21 21 [] # "operator"); (B "identifier" 212 410 411 21 21 [] # "right")] # "condition"); (A "?" 213 412 413 21 21 []); (B "identifier" 214 414 415 21 21 [] # "consequence"); (A ":" 215 416 417 21 21 []); (B "identifier" 216 418 419 21 21 [] # "alternative")] # "value")] # "declarator"); (A ";" 217 419 420 21 21 [])]); (B "expression_statement" 218 425 476 22 22 [(B "ternary_expression" 219 425 475 22 22 [(B "binary_expression" 220 425 430 22 22 [(B "identifier" 221 425 426 22 22 [] # "left"); (A "<" 222 427 428 22 22 [] # "operator"); (B "identifier" 223 429 430 22 22 [] # "right")] # "condition"); (A "?" 224 431 432 22 22 []); (B "method_invocation" 225 433 451 22 22 [(B "identifier" 226 433 439 22 22 [] # "object"); (A "." 227 439 440 22 22 []); (B "identifier" 228 440 445 22 22 [] # "name"); (B "argument_list" 229 445 451 22 22 [(A "(" 230 445 446 22 22 []); (B "string_literal" 231 446 450 22 22 []); (A ")" 232 450 451 22 22 [])] # "arguments")] # "consequence"); (A ":" 233 452 453 22 22 []); (B "method_invocation" 234 454 475 22 22 [(B "identifier" 235 454 460 22 22 [] # "object"); (A "." 236 460 461 22 22 []); (B "identifier" 237 461 466 22 22 [] # "name"); (B "argument_list" 238 466 475 22 22 [(A "(" 239 466 467 22 22 []); (B "string_literal" 240 467 474 22 22 []); (A ")" 241 474 475 22 22 [])] # "arguments")] # "alternative")]); (A ";" 242 475 476 22 22 [])]); (A "}" 243 479 480 23 23 [])] # "body")]); (B "method_declaration" 244 484 721 25 40 [(B "void_type" 245 484 488 25 25 [] # "type"); (B "identifier" 246 489 505 25 25 [] # "name"); (B "formal_parameters" 247 505 507 25 25 [(A "(" 248 505 506 25 25 []); (A ")" 249 506 507 25 25 [])] # "parameters"); (B "block" 250 508 721 25 40 [(A "{" 251 508 509 25 25 []); (B "local_variable_declaration" 252 514 528 26 26 [(B "type_identifier" 253 514 521 26 26 [] # "type"); (B "variable_declarator" 254 522 527 26 26 [(B "identifier" 255 522 523 26 26 [] # "name"); (B "assignment_operator" 256 524 525 26 26 [(A "=" 257 524 525 26 26 [])]); (B "int" 258 526 527 26 26 [] # "value")] # "declarator"); (A ";" 259 527 528 26 26 [])]); (B "local_variable_declaration" 260 533 547 27 27 [(B "type_identifier" 261 533 540 27 27 [] # "type"); (B "variable_declarator" 262 541 546 27 27 [(B "identifier" 263 541 542 27 27 [] # "name"); (B "assignment_operator" 264 543 544 27 27 [(A "=" 265 543 544 27 27 [])]); (B "int" 266 545 546 27 27 [] # "value")] # "declarator"); (A ";" 267 546 547 27 27 [])]); (B "local_variable_declaration" 268 552 562 28 28 [(B "type_identifier" 269 552 559 28 28 [] # "type"); (B "variable_declarator" 270 560 561 28 28 [(B "identifier" 271 560 561 28 28 [] # "name")] # "declarator"); (A ";" 272 561 562 28 28 [])]); (B "expression_statement" 273 568 578 30 30 [(B "assignment_expression" 274 568 577 30 30 [(B "identifier" 275 568 569 30 30 [] # "left"); (B "assignment_operator" 276 570 571 30 30 [(A "=" 277 570 571 30 30 [])] # "operator"); (B "binary_expression" 278 572 577 30 30 [(B "identifier" 279 572 573 30 30 [] # "left"); (A "+" 280 574 575 30 30 [] # "operator"); (B "identifier" 281 576 577 30 30 [] # "right")] # "right")]); (A ";" 282 577 578 30 30 [])]); (B "expression_statement" 283 583 593 31 31 [(B "assignment_expression" 284 583 592 31 31 [(B "identifier" 285 583 584 31 31 [] # "left"); (B "assignment_operator" 286 585 586 31 31 [(A "=" 287 585 586 31 31 [])] # "operator"); (B "binary_expression" 288 587 592 31 31 [(B "identifier" 289 587 588 31 31 [] # "left"); (A "-" 290 589 590 31 31 [] # "operator"); (B "identifier" 291 591 592 31 31 [] # "right")] # "right")]); (A ";" 292 592 593 31 31 [])]); (B "expression_statement" 293 598 608 32 32 [(B "assignment_expression" 294 598 607 32 32 [(B "identifier" 295 598 599 32 32 [] # "left"); (B "assignment_operator" 296 600 601 32 32 [(A "=" 297 600 601 32 32 [])] # "operator"); (B "binary_expression" 298 602 607 32 32 [(B "identifier" 299 602 603 32 32 [] # "left"); (A "*" 300 604 605 32 32 [] # "operator"); (B "identifier" 301 606 607 32 32 [] # "right")] # "right")]); (A ";" 302 607 608 32 32 [])]); (B "expression_statement" 303 613 623 33 33 [(B "assignment_expression" 304 613 622 33 33 [(B "identifier" 305 613 614 33 33 [] # "left"); (B "assignment_operator" 306 615 616 33 33 [(A "=" 307 615 616 33 33 [])] # "operator"); (B "binary_expression" 308 617 622 33 33 [(B "identifier" 309 617 618 33 33 [] # "left"); (A "/" 310 619 620 33 33 [] # "operator"); (B "identifier" 311 621 622 33 33 [] # "right")] # "right")]); (A ";" 312 622 623 33 33 [])]); (B "expression_statement" 313 628 639 34 34 [(B "assignment_expression" 314 628 638 34 34 [(B "identifier" 315 628 629 34 34 [] # "left"); (B "assignment_operator" 316 630 631 34 34 [(A "=" 317 630 631 34 34 [])] # "operator"); (B "binary_expression" 318 632 638 34 34 [(B "identifier" 319 632 633 34 34 [] # "left"); (A "<<" 320 634 636 34 34 [] # "operator"); (B "identifier" 321 637 638 34 34 [] # "right")] # "right")]); (A ";" 322 638 639 34 34 [])]); (B "expression_statement" 323 644 655 35 35 [(B "assignment_expression" 324 644 654 35 35 [(B "identifier" 325 644 645 35 35 [] # "left"); (B "assignment_operator" 326 646 647 35 35 [(A "=" 327 646 647 35 35 [])] # "operator"); (B "binary_expression" 328 648 654 35 35 [(B "identifier" 329 648 649 35 35 [] # "left"); (A ">>" 330 650 652 35 35 [] # "operator"); (B "identifier" 331 653 654 35 35 [] # "right")] # "right")]); (A ";" 332 654 655 35 35 [])]); (B "expression_statement" 333 660 672 36 36 [(B "assignment_expression" 334 660 671 36 36 [(B "identifier" 335 660 661 36 36 [] # "left"); (B "assignment_operator" 336 662 663 36 36 [(A "=" 337 662 663 36 36 [])] # "operator"); (B "binary_expression" 338 664 671 36 36 [(B "identifier" 339 664 665 36 36 [] # "left"); (A ">>>" 340 666 669 36 36 [] # "operator"); (B "identifier" 341 670 671 36 36 [] # "right")] # "right")]); (A ";" 342 671 672 36 36 [])]); (B "expression_statement" 343 677 687 37 37 [(B "assignment_expression" 344 677 686 37 37 [(B "identifier" 345 677 678 37 37 [] # "left"); (B "assignment_operator" 346 679 680 37 37 [(A "=" 347 679 680 37 37 [])] # "operator"); (B "binary_expression" 348 681 686 37 37 [(B "identifier" 349 681 682 37 37 [] # "left"); (A "^" 350 683 684 37 37 [] # "operator"); (B "identifier" 351 685 686 37 37 [] # "right")] # "right")]); (A ";" 352 686 687 37 37 [])]); (B "expression_statement" 353 692 702 38 38 [(B "assignment_expression" 354 692 701 38 38 [(B "identifier" 355 692 693 38 38 [] # "left"); (B "assignment_operator" 356 694 695 38 38 [(A "=" 357 694 695 38 38 [])] # "operator"); (B "binary_expression" 358 696 701 38 38 [(B "identifier" 359 696 697 38 38 [] # "left"); (A "&" 360 698 699 38 38 [] # "operator"); (B "identifier" 361 700 701 38 38 [] # "right")] # "right")]); (A ";" 362 701 702 38 38 [])]); (B "expression_statement" 363 707 717 39 39 [(B "assignment_expression" 364 707 716 39 39 [(B "identifier" 365 707 708 39 39 [] # "left"); (B "assignment_operator" 366 709 710 39 39 [(A "=" 367 709 710 39 39 [])] # "operator"); (B "binary_expression" 368 711 716 39 39 [(B "identifier" 369 711 712 39 39 [] # "left"); (A "|" 370 713 714 39 39 [] # "operator"); (B "identifier" 371 715 716 39 39 [] # "right")] # "right")]); (A ";" 372 716 717 39 39 [])]); (A "}" 373 720 721 40 40 [])] # "body")]); (B "method_declaration" 374 726 852 43 49 [(B "void_type" 375 726 730 43 43 [] # "type"); (B "identifier" 376 731 745 43 43 [] # "name"); (B "formal_parameters" 377 745 747 43 43 [(A "(" 378 745 746 43 43 []); (A ")" 379 746 747 43 43 [])] # "parameters"); (B "block" 380 748 852 43 49 [(A "{" 381 748 749 43 43 []); (B "local_variable_declaration" 382 754 763 44 44 [(B "type_identifier" 383 754 760 44 44 [] # "type"); (B "variable_declarator" 384 761 762 44 44 [(B "identifier" 385 761 762 44 44 [] # "name")] # "declarator"); (A ";" 386 762 763 44 44 [])]); (B "local_variable_declaration" 387 769 783 46 46 [(B "type_identifier" 388 769 771 46 46 [] # "type"); (B "variable_declarator" 389 772 782 46 46 [(B "identifier" 390 772 773 46 46 [] # "name"); (B "assignment_operator" 391 774 775 46 46 [(A "=" 392 774 775 46 46 [])]); (B "cast_expression" 393 776 782 46 46 [(A "(" 394 776 777 46 46 []); (B "type_identifier" 395 777 779 46 46 [] # "type"); (A ")" 396 779 780 46 46 []); (B "identifier" 397 781 782 46 46 [] # "value")] # "value")] # "declarator"); (A ";" 398 782 783 46 46 [])]); (B "local_variable_declaration" 399 788 847 47 47 [(B "scoped_type_identifier" 400 788 806 47 47 [(B "type_identifier" 401 788 794 47 47 []); (A "." 402 794 795 47 47 []); (B "type_identifier" 403 795 806 47 47 [])] # "type"); (B "variable_declarator" 404 807 846 47 47 [(B "identifier" 405 807 818 47 47 [] # "name"); (B "assignment_operator" 406 819 820 47 47 [(A "=" 407 819 820 47 47 [])]); (B "method_invocation" 408 821 846 47 47 [(B "parenthesized_expression" 409 821 829 47 47 [(A "(" 410 821 822 47 47 []); (B "cast_expression" 411 822 828 47 47 [(A "(" 412 822 823 47 47 []); (B "type_identifier" 413 823 825 47 47 [] # "type"); (A ")" 414 825 826 47 47 []); (B "identifier" 415 827 828 47 47 [] # "value")]); (A ")" 416 828 829 47 47 [])] # "object"); (A "." 417 829 830 47 47 []); (B "identifier" 418 830 844 47 47 [] # "name"); (B "argument_list" 419 844 846 47 47 [(A "(" 420 844 845 47 47 []); (A ")" 421 845 846 47 47 [])] # "arguments")] # "value")] # "declarator"); (A ";" 422 846 847 47 47 [])]); (A "}" 423 851 852 49 49 [])] # "body")]); (B "method_declaration" 424 856 942 51 54 [(B "void_type" 425 856 860 51 51 [] # "type"); (B "identifier" 426 861 881 51 51 [] # "name"); (B "formal_parameters" 427 881 883 51 51 [(A "(" 428 881 882 51 51 []); (A ")" 429 882 883 51 51 [])] # "parameters"); (B "block" 430 884 942 51 54 [(A "{" 431 884 885 51 51 []); (B "local_variable_declaration" 432 890 900 52 52 [(B "type_identifier" 433 890 897 52 52 [] # "type"); (B "variable_declarator" 434 898 899 52 52 [(B "identifier" 435 898 899 52 52 [] # "name")] # "declarator"); (A ";" 436 899 900 52 52 [])]); (B "local_variable_declaration" 437 905 938 53 53 [(B "type_identifier" 438 905 912 53 53 [] # "type"); (B "variable_declarator" 439 913 937 53 53 [(B "identifier" 440 913 914 53 53 [] # "name"); (B "assignment_operator" 441 915 916 53 53 [(A "=" 442 915 916 53 53 [])]); (B "instanceof_expression" 443 917 937 53 53 [(B "identifier" 444 917 918 53 53 [] # "left"); (A "instanceof" 445 919 929 53 53 []); (B "type_identifier" 446 930 937 53 53 [] # "right")] # "value")] # "declarator"); (A ";" 447 937 938 53 53 [])]); (A "}" 448 941 942 54 54 [])] # "body")]); (B "method_declaration" 449 946 1214 56 73 [(B "void_type" 450 946 950 56 56 [] # "type"); (B "identifier" 451 951 968 56 56 [] # "name"); (B "formal_parameters" 452 968 970 56 56 [(A "(" 453 968 969 56 56 []); (A ")" 454 969 970 56 56 [])] # "parameters"); (B "block" 455 971 1214 56 73 [(A "{" 456 971 972 56 56 []); (B "local_variable_declaration" 457 977 994 57 57 [(B "type_identifier" 458 977 984 57 57 [] # "type"); (B "variable_declarator" 459 985 993 57 57 [(B "identifier" 460 985 986 57 57 [] # "name"); (B "assignment_operator" 461 987 988 57 57 [(A "=" 462 987 988 57 57 [])]); (B "boolean" 463 989 993 57 57 [(A "true" 464 989 993 57 57 [])] # "value")] # "declarator"); (A ";" 465 993 994 57 57 [])]); (B "local_variable_declaration" 466 999 1017 58 58 [(B "type_identifier" 467 999 1006 58 58 [] # "type"); (B "variable_declarator" 468 1007 1016 58 58 [(B "identifier" 469 1007 1008 58 58 [] # "name"); (B "assignment_operator" 470 1009 1010 58 58 [(A "=" 471 1009 1010 58 58 [])]); (B "boolean" 472 1011 1016 58 58 [(A "false" 473 1011 1016 58 58 [])] # "value")] # "declarator"); (A ";" 474 1016 1017 58 58 [])]); (B "local_variable_declaration" 475 1022 1032 59 59 [(B "type_identifier" 476 1022 1029 59 59 [] # "type"); (B "variable_declarator" 477 1030 1031 59 59 [(B "identifier" 478 1030 1031 59 59 [] # "name")] # "declarator"); (A ";" 479 1031 1032 59 59 [])]); (B "expression_statement" 480 1038 1049 61 61 [(B "assignment_expression" 481 1038 1048 61 61 [(B "identifier" 482 1038 1039 61 61 [] # "left"); (B "assignment_operator" 483 1040 1041 61 61 [(A "=" 484 1040 1041 61 61 [])] # "operator"); (B "binary_expression" 485 1042 1048 61 61 [(B "identifier" 486 1042 1043 61 61 [] # "left"); (A "==" 487 1044 1046 61 61 [] # "operator"); (B "identifier" 488 1047 1048 61 61 [] # "right")] # "right")]); (A ";" 489 1048 1049 61 61 [])]); (B "expression_statement" 490 1054 1066 62 62 [(B "assignment_expression" 491 1054 1065 62 62 [(B "identifier" 492 1054 1055 62 62 [] # "left"); (B "assignment_operator" 493 1056 1057 62 62 [(A "=" 494 1056 1057 62 62 [])] # "operator"); (B "binary_expression" 495 1058 1065 62 62 [(B "identifier" 496 1058 1059 62 62 [] # "left"); (A "===" 497 1060 1063 62 62 [] # "operator"); (B "identifier" 498 1064 1065 62 62 [] # "right")] # "right")]); (A ";" 499 1065 1066 62 62 [])]); (B "expression_statement" 500 1071 1083 63 63 [(B "assignment_expression" 501 1071 1082 63 63 [(B "identifier" 502 1071 1072 63 63 [] # "left"); (B "assignment_operator" 503 1073 1074 63 63 [(A "=" 504 1073 1074 63 63 [])] # "operator"); (B "binary_expression" 505 1075 1082 63 63 [(B "identifier" 506 1075 1076 63 63 [] # "left"); (A "!==" 507 1077 1080 63 63 [] # "operator"); (B "identifier" 508 1081 1082 63 63 [] # "right")] # "right")]); (A ";" 509 1082 1083 63 63 [])]); (B "expression_statement" 510 1088 1099 64 64 [(B "assignment_expression" 511 1088 1098 64 64 [(B "identifier" 512 1088 1089 64 64 [] # "left"); (B "assignment_operator" 513 1090 1091 64 64 [(A "=" 514 1090 1091 64 64 [])] # "operator"); (B "binary_expression" 515 1092 1098 64 64 [(B "identifier" 516 1092 1093 64 64 [] # "left"); (A "!=" 517 1094 1096 64 64 [] # "operator"); (B "identifier" 518 1097 1098 64 64 [] # "right")] # "right")]); (A ";" 519 1098 1099 64 64 [])]); (B "expression_statement" 520 1104 1115 65 65 [(B "assignment_expression" 521 1104 1114 65 65 [(B "identifier" 522 1104 1105 65 65 [] # "left"); (B "assignment_operator" 523 1106 1107 65 65 [(A "=" 524 1106 1107 65 65 [])] # "operator"); (B "binary_expression" 525 1108 1114 65 65 [(B "identifier" 526 1108 1109 65 65 [] # "left"); (A "<>" 527 1110 1112 65 65 [] # "operator"); (B "identifier" 528 1113 1114 65 65 [] # "right")] # "right")]); (A ";" 529 1114 1115 65 65 [])]); (B "expression_statement" 530 1120 1130 66 66 [(B "assignment_expression" 531 1120 1129 66 66 [(B "identifier" 532 1120 1121 66 66 [] # "left"); (B "assignment_operator" 533 1122 1123 66 66 [(A "=" 534 1122 1123 66 66 [])] # "operator"); (B "binary_expression" 535 1124 1129 66 66 [(B "identifier" 536 1124 1125 66 66 [] # "left"); (A "<" 537 1126 1127 66 66 [] # "operator"); (B "identifier" 538 1128 1129 66 66 [] # "right")] # "right")]); (A ";" 539 1129 1130 66 66 [])]); (B "expression_statement" 540 1135 1145 67 67 [(B "assignment_expression" 541 1135 1144 67 67 [(B "identifier" 542 1135 1136 67 67 [] # "left"); (B "assignment_operator" 543 1137 1138 67 67 [(A "=" 544 1137 1138 67 67 [])] # "operator"); (B "binary_expression" 545 1139 1144 67 67 [(B "identifier" 546 1139 1140 67 67 [] # "left"); (A ">" 547 1141 1142 67 67 [] # "operator"); (B "identifier" 548 1143 1144 67 67 [] # "right")] # "right")]); (A ";" 549 1144 1145 67 67 [])]); (B "expression_statement" 550 1150 1161 68 68 [(B "assignment_expression" 551 1150 1160 68 68 [(B "identifier" 552 1150 1151 68 68 [] # "left"); (B "assignment_operator" 553 1152 1153 68 68 [(A "=" 554 1152 1153 68 68 [])] # "operator"); (B "binary_expression" 555 1154 1160 68 68 [(B "identifier" 556 1154 1155 68 68 [] # "left"); (A "<=" 557 1156 1158 68 68 [] # "operator"); (B "identifier" 558 1159 1160 68 68 [] # "right")] # "right")]); (A ";" 559 1160 1161 68 68 [])]); (B "expression_statement" 560 1166 1177 69 69 [(B "assignment_expression" 561 1166 1176 69 69 [(B "identifier" 562 1166 1167 69 69 [] # "left"); (B "assignment_operator" 563 1168 1169 69 69 [(A "=" 564 1168 1169 69 69 [])] # "operator"); (B "binary_expression" 565 1170 1176 69 69 [(B "identifier" 566 1170 1171 69 69 [] # "left"); (A ">=" 567 1172 1174 69 69 [] # "operator"); (B "identifier" 568 1175 1176 69 69 [] # "right")] # "right")]); (A ";" 569 1176 1177 69 69 [])]); (B "expression_statement" 570 1182 1193 70 70 [(B "assignment_expression" 571 1182 1192 70 70 [(B "identifier" 572 1182 1183 70 70 [] # "left"); (B "assignment_operator" 573 1184 1185 70 70 [(A "=" 574 1184 1185 70 70 [])] # "operator"); (B "binary_expression" 575 1186 1192 70 70 [(B "identifier" 576 1186 1187 70 70 [] # "left"); (A "&&" 577 1188 1190 70 70 [] # "operator"); (B "identifier" 578 1191 1192 70 70 [] # "right")] # "right")]); (A ";" 579 1192 1193 70 70 [])]); (B "expression_statement" 580 1198 1209 71 71 [(B "assignment_expression" 581 1198 1208 71 71 [(B "identifier" 582 1198 1199 71 71 [] # "left"); (B "assignment_operator" 583 1200 1201 71 71 [(A "=" 584 1200 1201 71 71 [])] # "operator"); (B "binary_expression" 585 1202 1208 71 71 [(B "identifier" 586 1202 1203 71 71 [] # "left"); (A "||" 587 1204 1206 71 71 [] # "operator"); (B "identifier" 588 1207 1208 71 71 [] # "right")] # "right")]); (A ";" 589 1208 1209 71 71 [])]); (A "}" 590 1213 1214 73 73 [])] # "body")]); (B "method_declaration" 591 1218 1260 75 75 [(B "void_type" 592 1218 1222 75 75 [] # "type"); (B "identifier" 593 1223 1255 75 75 [] # "name"); (B "formal_parameters" 594 1255 1257 75 75 [(A "(" 595 1255 1256 75 75 []); (A ")" 596 1256 1257 75 75 [])] # "parameters"); (B "block" 597 1258 1260 75 75 [(A "{" 598 1258 1259 75 75 []); (A "}" 599 1259 1260 75 75 [])] # "body")]); (B "method_declaration" 600 1264 1330 77 79 [(B "void_type" 601 1264 1268 77 77 [] # "type"); (B "identifier" 602 1269 1293 77 77 [] # "name"); (B "formal_parameters" 603 1293 1295 77 77 [(A "(" 604 1293 1294 77 77 []); (A ")" 605 1294 1295 77 77 [])] # "parameters"); (B "block" 606 1296 1330 77 79 [(A "{" 607 1296 1297 77 77 []); (B "expression_statement" 608 1302 1326 78 78 [(B "version_expression" 609 1302 1325 78 78 [(A "Package.Version." 610 1302 1318 78 78 []); (A "Request" 611 1318 1325 78 78 [])]); (A ";" 612 1325 1326 78 78 [])]); (A "}" 613 1329 1330 79 79 [])] # "body")]); (B "method_declaration" 614 1334 1472 81 91 [(B "void_type" 615 1334 1338 81 81 [] # "type"); (B "identifier" 616 1339 1355 81 81 [] # "name"); (B "formal_parameters" 617 1355 1357 81 81 [(A "(" 618 1355 1356 81 81 []); (A ")" 619 1356 1357 81 81 [])] # "parameters"); (B "block" 620 1358 1472 81 91 [(A "{" 621 1358 1359 81 81 []); (B "local_variable_declaration" 622 1364 1378 82 82 [(B "type_identifier" 623 1364 1371 82 82 [] # "type"); (B "variable_declarator" 624 1372 1377 82 82 [(B "identifier" 625 1372 1373 82 82 [] # "name"); (B "assignment_operator" 626 1374 1375 82 82 [(A "=" 627 1374 1375 82 82 [])]); (B "int" 628 1376 1377 82 82 [] # "value")] # "declarator"); (A ";" 629 1377 1378 82 82 [])]); (B "local_variable_declaration" 630 1383 1393 83 83 [(B "type_identifier" 631 1383 1390 83 83 [] # "type"); (B "variable_declarator" 632 1391 1392 83 83 [(B "identifier" 633 1391 1392 83 83 [] # "name")] # "declarator"); (A ";" 634 1392 1393 83 83 [])]); (B "expression_statement" 635 1399 1406 85 85 [(B "assignment_expression" 636 1399 1405 85 85 [(B "identifier" 637 1399 1400 85 85 [] # "left"); (B "assignment_operator" 638 1401 1402 85 85 [(A "=" 639 1401 1402 85 85 [])] # "operator"); (B "unary_expression" 640 1403 1405 85 85 [(A "+" 641 1403 1404 85 85 [] # "operator"); (B "identifier" 642 1404 1405 85 85 [] # "operand")] # "right")]); (A ";" 643 1405 1406 85 85 [])]); (B "expression_statement" 644 1411 1418 86 86 [(B "assignment_expression" 645 1411 1417 86 86 [(B "identifier" 646 1411 1412 86 86 [] # "left"); (B "assignment_operator" 647 1413 1414 86 86 [(A "=" 648 1413 1414 86 86 [])] # "operator"); (B "unary_expression" 649 1415 1417 86 86 [(A "-" 650 1415 1416 86 86 [] # "operator"); (B "identifier" 651 1416 1417 86 86 [] # "operand")] # "right")]); (A ";" 652 1417 1418 86 86 [])]); (B "expression_statement" 653 1423 1430 87 87 [(B "assignment_expression" 654 1423 1429 87 87 [(B "identifier" 655 1423 1424 87 87 [] # "left"); (B "assignment_operator" 656 1425 1426 87 87 [(A "=" 657 1425 1426 87 87 [])] # "operator"); (B "unary_expression" 658 1427 1429 87 87 [(A "!" 659 1427 1428 87 87 [] # "operator"); (B "identifier" 660 1428 1429 87 87 [] # "operand")] # "right")]); (A ";" 661 1429 1430 87 87 [])]); (B "expression_statement" 662 1435 1442 88 88 [(B "assignment_expression" 663 1435 1441 88 88 [(B "identifier" 664 1435 1436 88 88 [] # "left"); (B "assignment_operator" 665 1437 1438 88 88 [(A "=" 666 1437 1438 88 88 [])] # "operator"); (B "unary_expression" 667 1439 1441 88 88 [(A "~" 668 1439 1440 88 88 [] # "operator"); (B "identifier" 669 1440 1441 88 88 [] # "operand")] # "right")]); (A ";" 670 1441 1442 88 88 [])]); (B "expression_statement" 671 1447 1455 89 89 [(B "assignment_expression" 672 1447 1454 89 89 [(B "identifier" 673 1447 1448 89 89 [] # "left"); (B "assignment_operator" 674 1449 1450 89 89 [(A "=" 675 1449 1450 89 89 [])] # "operator"); (B "update_expression" 676 1451 1454 89 89 [(A "++" 677 1451 1453 89 89 [] # "operator"); (B "identifier" 678 1453 1454 89 89 [] # "operand")] # "right")]); (A ";" 679 1454 1455 89 89 [])]); (B "expression_statement" 680 1460 1468 90 90 [(B "assignment_expression" 681 1460 1467 90 90 [(B "identifier" 682 1460 1461 90 90 [] # "left"); (B "assignment_operator" 683 1462 1463 90 90 [(A "=" 684 1462 1463 90 90 [])] # "operator"); (B "update_expression" 685 1464 1467 90 90 [(A "--" 686 1464 1466 90 90 [] # "operator"); (B "identifier" 687 1466 1467 90 90 [] # "operand")] # "right")]); (A ";" 688 1467 1468 90 90 [])]); (A "}" 689 1471 1472 91 91 [])] # "body")]); (B "method_declaration" 690 1476 1567 93 99 [(B "void_type" 691 1476 1480 93 93 [] # "type"); (B "identifier" 692 1481 1498 93 93 [] # "name"); (B "formal_parameters" 693 1498 1500 93 93 [(A "(" 694 1498 1499 93 93 []); (A ")" 695 1499 1500 93 93 [])] # "parameters"); (B "block" 696 1501 1567 93 99 [(A "{" 697 1501 1502 93 93 []); (B "local_variable_declaration" 698 1507 1521 94 94 [(B "type_identifier" 699 1507 1514 94 94 [] # "type"); (B "variable_declarator" 700 1515 1520 94 94 [(B "identifier" 701 1515 1516 94 94 [] # "name"); (B "assignment_operator" 702 1517 1518 94 94 [(A "=" 703 1517 1518 94 94 [])]); (B "int" 704 1519 1520 94 94 [] # "value")] # "declarator"); (A ";" 705 1520 1521 94 94 [])]); (B "local_variable_declaration" 706 1526 1536 95 95 [(B "type_identifier" 707 1526 1533 95 95 [] # "type"); (B "variable_declarator" 708 1534 1535 95 95 [(B "identifier" 709 1534 1535 95 95 [] # "name")] # "declarator"); (A ";" 710 1535 1536 95 95 [])]); (B "expression_statement" 711 1542 1550 97 97 [(B "assignment_expression" 712 1542 1549 97 97 [(B "identifier" 713 1542 1543 97 97 [] # "left"); (B "assignment_operator" 714 1544 1545 97 97 [(A "=" 715 1544 1545 97 97 [])] # "operator"); (B "update_expression" 716 1546 1549 97 97 [(B "identifier" 717 1546 1547 97 97 [] # "operand"); (A "++" 718 1547 1549 97 97 [] # "operator")] # "right")]); (A ";" 719 1549 1550 97 97 [])]); (B "expression_statement" 720 1555 1563 98 98 [(B "assignment_expression" 721 1555 1562 98 98 [(B "identifier" 722 1555 1556 98 98 [] # "left"); (B "assignment_operator" 723 1557 1558 98 98 [(A "=" 724 1557 1558 98 98 [])] # "operator"); (B "update_expression" 725 1559 1562 98 98 [(B "identifier" 726 1559 1560 98 98 [] # "operand"); (A "--" 727 1560 1562 98 98 [] # "operator")] # "right")]); (A ";" 728 1562 1563 98 98 [])]); (A "}" 729 1566 1567 99 99 [])] # "body")]); (B "method_declaration" 730 1571 1730 101 109 [(B "void_type" 731 1571 1575 101 101 [] # "type"); (B "identifier" 732 1576 1591 101 101 [] # "name"); (B "formal_parameters" 733 1591 1593 101 101 [(A "(" 734 1591 1592 101 101 []); (A ")" 735 1592 1593 101 101 [])] # "parameters"); (B "block" 736 1594 1730 101 109 [(A "{" 737 1594 1595 101 101 []); (B "local_variable_declaration" 738 1600 1610 102 102 [(B "type_identifier" 739 1600 1607 102 102 [] # "type"); (B "variable_declarator" 740 1608 1609 102 102 [(B "identifier" 741 1608 1609 102 102 [] # "name")] # "declarator"); (A ";" 742 1609 1610 102 102 [])]); (B "expression_statement" 743 1616 1625 104 104 [(B "assignment_expression" 744 1616 1624 104 104 [(B "identifier" 745 1616 1617 104 104 [] # "left"); (B "assignment_operator" 746 1618 1619 104 104 [(A "=" 747 1618 1619 104 104 [])] # "operator"); (B "array_access" 748 1620 1624 104 104 [(B "identifier" 749 1620 1621 104 104 [] # "array"); (A "[" 750 1621 1622 104 104 []); (B "int" 751 1622 1623 104 104 [] # "index"); (A "]" 752 1623 1624 104 104 [])] # "right")]); (A ";" 753 1624 1625 104 104 [])]); (B "expression_statement" 754 1630 1642 105 105 [(B "assignment_expression" 755 1630 1641 105 105 [(B "identifier" 756 1630 1631 105 105 [] # "left"); (B "assignment_operator" 757 1632 1633 105 105 [(A "=" 758 1632 1633 105 105 [])] # "operator"); (B "array_access" 759 1634 1641 105 105 [(B "identifier" 760 1634 1635 105 105 [] # "array"); (A "[" 761 1635 1636 105 105 []); (B "array_access" 762 1636 1640 105 105 [(B "identifier" 763 1636 1637 105 105 [] # "array"); (A "[" 764 1637 1638 105 105 []); (B "int" 765 1638 1639 105 105 [] # "index"); (A "]" 766 1639 1640 105 105 [])] # "index"); (A "]" 767 1640 1641 105 105 [])] # "right")]); (A ";" 768 1641 1642 105 105 [])]); (B "expression_statement" 769 1648 1672 107 107 [(B "assignment_expression" 770 1648 1671 107 107 [(B "identifier" 771 1648 1649 107 107 [] # "left"); (B "assignment_operator" 772 1650 1651 107 107 [(A "=" 773 1650 1651 107 107 [])] # "operator"); (B "array_access" 774 1652 1671 107 107 [(B "string_literal" 775 1652 1668 107 107 [] # "array"); (A "[" 776 1668 1669 107 107 []); (B "int" 777 1669 1670 107 107 [] # "index"); (A "]" 778 1670 1671 107 107 [])] # "right")]); (A ";" 779 1671 1672 107 107 [])]); (B "local_variable_declaration" 780 1678 1729 109 109 [(B "type_identifier" 781 1678 1684 109 109 [] # "type"); (B "variable_declarator" 782 1685 1728 109 109 [(B "identifier" 783 1685 1695 109 109 [] # "name"); (B "assignment_operator" 784 1696 1697 109 109 [(A "=" 785 1696 1697 109 109 [])]); (B "method_invocation" 786 1698 1728 109 109 [(B "array_access" 787 1698 1702 109 109 [(B "identifier" 788 1698 1699 109 109 [] # "array"); (A "[" 789 1699 1700 109 109 []); (B "int" 790 1700 1701 109 109 [] # "index"); (A "]" 791 1701 1702 109 109 [])] # "object"); (A "." 792 1702 1703 109 109 []); (B "identifier" 793 1703 1713 109 109 [] # "name"); (B "argument_list" 794 1713 1728 109 109 [(A "(" 795 1713 1714 109 109 []); (B "string_literal" 796 1714 1727 109 109 []); (A ")" 797 1727 1728 109 109 [])] # "arguments")] # "value")] # "declarator"); (A ";" 798 1728 1729 109 109 [])]); (A "}" 799 1729 1730 109 109 [])] # "body")]); (B "method_declaration" 800 1734 1826 111 115 [(B "void_type" 801 1734 1738 111 111 [] # "type"); (B "identifier" 802 1739 1757 111 111 [] # "name"); (B "formal_parameters" 803 1757 1759 111 111 [(A "(" 804 1757 1758 111 111 []); (A ")" 805 1758 1759 111 111 [])] # "parameters"); (B "block" 806 1760 1826 111 115 [(A "{" 807 1760 1761 111 111 []); (B "local_variable_declaration" 808 1766 1780 112 112 [(B "type_identifier" 809 1766 1773 112 112 [] # "type"); (B "variable_declarator" 810 1774 1779 112 112 [(B "identifier" 811 1774 1775 112 112 [] # "name"); (B "assignment_operator" 812 1776 1777 112 112 [(A "=" 813 1776 1777 112 112 [])]); (B "int" 814 1778 1779 112 112 [] # "value")] # "declarator"); (A ";" 815 1779 1780 112 112 [])]); (B "local_variable_declaration" 816 1785 1799 113 113 [(B "type_identifier" 817 1785 1792 113 113 [] # "type"); (B "variable_declarator" 818 1793 1798 113 113 [(B "identifier" 819 1793 1794 113 113 [] # "name"); (B "assignment_operator" 820 1795 1796 113 113 [(A "=" 821 1795 1796 113 113 [])]); (B "int" 822 1797 1798 113 113 [] # "value")] # "declarator"); (A ";" 823 1798 1799 113 113 [])]); (B "local_variable_declaration" 824 1804 1822 114 114 [(B "type_identifier" 825 1804 1811 114 114 [] # "type"); (B "variable_declarator" 826 1812 1821 114 114 [(B "identifier" 827 1812 1813 114 114 [] # "name"); (B "assignment_operator" 828 1814 1815 114 114 [(A "=" 829 1814 1815 114 114 [])]); (B "binary_expression" 830 1816 1821 114 114 [(B "identifier" 831 1816 1817 114 114 [] # "left"); (A "+" 832 1818 1819 114 114 [] # "operator"); (B "identifier" 833 1820 1821 114 114 [] # "right")] # "value")] # "declarator"); (A ";" 834 1821 1822 114 114 [])]); (A "}" 835 1825 1826 115 115 [])] # "body")]); (B "method_declaration" 836 1830 1901 117 120 [(B "void_type" 837 1830 1834 117 117 [] # "type"); (B "identifier" 838 1835 1855 117 117 [] # "name"); (B "formal_parameters" 839 1855 1857 117 117 [(A "(" 840 1855 1856 117 117 []); (A ")" 841 1856 1857 117 117 [])] # "parameters"); (B "block" 842 1858 1901 117 120 [(A "{" 843 1858 1859 117 117 []); (B "local_variable_declaration" 844 1864 1896 118 118 [(B "type_identifier" 845 1864 1874 118 118 [] # "type"); (B "variable_declarator" 846 1875 1895 118 118 [(B "identifier" 847 1875 1876 118 118 [] # "name"); (B "assignment_operator" 848 1877 1878 118 118 [(A "=" 849 1877 1878 118 118 [])]); (B "object_creation_expression" 850 1879 1895 118 118 [(A "new" 851 1879 1882 118 118 []); (B "type_identifier" 852 1883 1893 118 118 [] # "type"); (B "argument_list" 853 1893 1895 118 118 [(A "(" 854 1893 1894 118 118 []); (A ")" 855 1894 1895 118 118 [])] # "arguments")] # "value")] # "declarator"); (A ";" 856 1895 1896 118 118 [])]); (A "}" 857 1900 1901 120 120 [])] # "body")]); (B "method_declaration" 858 1905 1949 122 122 [(B "void_type" 859 1905 1909 122 122 [] # "type"); (B "identifier" 860 1910 1944 122 122 [] # "name"); (B "formal_parameters" 861 1944 1946 122 122 [(A "(" 862 1944 1945 122 122 []); (A ")" 863 1945 1946 122 122 [])] # "parameters"); (B "block" 864 1947 1949 122 122 [(A "{" 865 1947 1948 122 122 []); (A "}" 866 1948 1949 122 122 [])] # "body")]); (B "method_declaration" 867 1953 1995 124 124 [(B "void_type" 868 1953 1957 124 124 [] # "type"); (B "identifier" 869 1958 1990 124 124 [] # "name"); (B "formal_parameters" 870 1990 1992 124 124 [(A "(" 871 1990 1991 124 124 []); (A ")" 872 1991 1992 124 124 [])] # "parameters"); (B "block" 873 1993 1995 124 124 [(A "{" 874 1993 1994 124 124 []); (A "}" 875 1994 1995 124 124 [])] # "body")]); (B "method_declaration" 876 1999 2091 126 130 [(B "void_type" 877 1999 2003 126 126 [] # "type"); (B "identifier" 878 2004 2027 126 126 [] # "name"); (B "formal_parameters" 879 2027 2029 126 126 [(A "(" 880 2027 2028 126 126 []); (A ")" 881 2028 2029 126 126 [])] # "parameters"); (B "block" 882 2030 2091 126 130 [(A "{" 883 2030 2031 126 126 []); (B "expression_statement" 884 2036 2055 127 127 [(B "method_invocation" 885 2036 2054 127 127 [(B "super" 886 2036 2041 127 127 [] # "object"); (A "." 887 2041 2042 127 127 []); (B "identifier" 888 2042 2052 127 127 [] # "name"); (B "argument_list" 889 2052 2054 127 127 [(A "(" 890 2052 2053 127 127 []); (A ")" 891 2053 2054 127 127 [])] # "arguments")]); (A ";" 892 2054 2055 127 127 [])]); (B "expression_statement" 893 2060 2086 128 128 [(B "method_invocation" 894 2060 2085 128 128 [(B "super" 895 2060 2065 128 128 [] # "object"); (A "." 896 2065 2066 128 128 []); (B "identifier" 897 2066 2076 128 128 [] # "name"); (B "argument_list" 898 2076 2085 128 128 [(A "(" 899 2076 2077 128 128 []); (B "int" 900 2077 2078 128 128 []); (A "," 901 2078 2079 128 128 []); (B "int" 902 2080 2081 128 128 []); (A "," 903 2081 2082 128 128 []); (B "int" 904 2083 2084 128 128 []); (A ")" 905 2084 2085 128 128 [])] # "arguments")]); (A ";" 906 2085 2086 128 128 [])]); (A "}" 907 2090 2091 130 130 [])] # "body")]); (B "method_declaration" 908 2095 2193 132 135 [(B "void_type" 909 2095 2099 132 132 [] # "type"); (B "identifier" 910 2100 2122 132 132 [] # "name"); (B "formal_parameters" 911 2122 2124 132 132 [(A "(" 912 2122 2123 132 132 []); (A ")" 913 2123 2124 132 132 [])] # "parameters"); (B "block" 914 2125 2193 132 135 [(A "{" 915 2125 2126 132 132 []); (B "expression_statement" 916 2131 2154 133 133 [(B "assignment_expression" 917 2131 2153 133 133 [(B "field_access" 918 2131 2137 133 133 [(B "this" 919 2131 2135 133 133 [] # "object"); (A "." 920 2135 2136 133 133 []); (B "identifier" 921 2136 2137 133 133 [] # "field")] # "left"); (B "assignment_operator" 922 2138 2139 133 133 [(A "=" 923 2138 2139 133 133 [])] # "operator"); (B "string_literal" 924 2140 2153 133 133 [] # "right")]); (A ";" 925 2153 2154 133 133 [])]); (B "expression_statement" 926 2159 2189 134 134 [(B "method_invocation" 927 2159 2188 134 134 [(B "identifier" 928 2159 2165 134 134 [] # "object"); (A "." 929 2165 2166 134 134 []); (B "identifier" 930 2166 2171 134 134 [] # "name"); (B "argument_list" 931 2171 2188 134 134 [(A "(" 932 2171 2172 134 134 []); (B "binary_expression" 933 2172 2187 134 134 [(B "field_access" 934 2172 2178 134 134 [(B "this" 935 2172 2176 134 134 [] # "object"); (A "." 936 2176 2177 134 134 []); (B "identifier" 937 2177 2178 134 134 [] # "field")] # "left"); (A "+" 938 2179 2180 134 134 [] # "operator"); (B "field_access" 939 2181 2187 134 134 [(B "this" 940 2181 2185 134 134 [] # "object"); (A "." 941 2185 2186 134 134 []); (B "identifier" 942 2186 2187 134 134 [] # "field")] # "right")]); (A ")" 943 2187 2188 134 134 [])] # "arguments")]); (A ";" 944 2188 2189 134 134 [])]); (A "}" 945 2192 2193 135 135 [])] # "body")]); (B "method_declaration" 946 2197 2245 137 138 [(B "void_type" 947 2197 2201 137 137 [] # "type"); (B "identifier" 948 2202 2237 137 137 [] # "name"); (B "formal_parameters" 949 2237 2239 137 137 [(A "(" 950 2237 2238 137 137 []); (A ")" 951 2238 2239 137 137 [])] # "parameters"); (B "block" 952 2240 2245 137 138 [(A "{" 953 2240 2241 137 137 []); (A "}" 954 2244 2245 138 138 [])] # "body")]); (B "method_declaration" 955 2249 2315 140 142 [(B "void_type" 956 2249 2253 140 140 [] # "type"); (B "identifier" 957 2254 2272 140 140 [] # "name"); (B "formal_parameters" 958 2272 2274 140 140 [(A "(" 959 2272 2273 140 140 []); (A ")" 960 2273 2274 140 140 [])] # "parameters"); (B "block" 961 2275 2315 140 142 [(A "{" 962 2275 2276 140 140 []); (B "local_variable_declaration" 963 2281 2311 141 141 [(B "scoped_type_identifier" 964 2281 2292 141 141 [(B "type_identifier" 965 2281 2287 141 141 []); (A "." 966 2287 2288 141 141 []); (B "type_identifier" 967 2288 2292 141 141 [])] # "type"); (B "variable_declarator" 968 2293 2310 141 141 [(B "identifier" 969 2293 2294 141 141 [] # "name"); (B "assignment_operator" 970 2295 2296 141 141 [(A "=" 971 2295 2296 141 141 [])]); (B "class_literal" 972 2297 2310 141 141 [(B "type_identifier" 973 2297 2304 141 141 []); (A "." 974 2304 2305 141 141 []); (A "class" 975 2305 2310 141 141 [])] # "value")] # "declarator"); (A ";" 976 2310 2311 141 141 [])]); (A "}" 977 2314 2315 142 142 [])] # "body")]); (B "method_declaration" 978 2319 2527 144 153 [(B "void_type" 979 2319 2323 144 144 [] # "type"); (B "identifier" 980 2324 2341 144 144 [] # "name"); (B "formal_parameters" 981 2341 2343 144 144 [(A "(" 982 2341 2342 144 144 []); (A ")" 983 2342 2343 144 144 [])] # "parameters"); (B "block" 984 2344 2527 144 153 [(A "{" 985 2344 2345 144 144 []); (B "local_variable_declaration" 986 2350 2369 145 145 [(B "type_identifier" 987 2350 2356 145 145 [] # "type"); (B "variable_declarator" 988 2357 2368 145 145 [(B "identifier" 989 2357 2358 145 145 [] # "name"); (B "assignment_operator" 990 2359 2360 145 145 [(A "=" 991 2359 2360 145 145 [])]); (B "string_literal" 992 2361 2368 145 145 [] # "value")] # "declarator"); (A ";" 993 2368 2369 145 145 [])]); (B "local_variable_declaration" 994 2374 2388 146 146 [(B "type_identifier" 995 2374 2381 146 146 [] # "type"); (B "variable_declarator" 996 2382 2387 146 146 [(B "identifier" 997 2382 2383 146 146 [] # "name"); (B "assignment_operator" 998 2384 2385 146 146 [(A "=" 999 2384 2385 146 146 [])]); (B "int" 1000 2386 2387 146 146 [] # "value")] # "declarator"); (A ";" 1001 2387 2388 146 146 [])]); (B "local_variable_declaration" 1002 2393 2414 147 147 [(B "type_identifier" 1003 2393 2397 147 147 [] # "type"); (B "variable_declarator" 1004 2398 2413 147 147 [(B "identifier" 1005 2398 2399 147 147 [] # "name"); (B "assignment_operator" 1006 2400 2401 147 147 [(A "=" 1007 2400 2401 147 147 [])]); (B "int" 1008 2402 2413 147 147 [] # "value")] # "declarator"); (A ";" 1009 2413 2414 147 147 [])]); (B "local_variable_declaration" 1010 2419 2435 148 148 [(B "type_identifier" 1011 2419 2425 148 148 [] # "type"); (B "variable_declarator" 1012 2426 2434 148 148 [(B "identifier" 1013 2426 2427 148 148 [] # "name"); (B "assignment_operator" 1014 2428 2429 148 148 [(A "=" 1015 2428 2429 148 148 [])]); (B "decimal_floating_point_literal" 1016 2430 2434 148 148 [] # "value")] # "declarator"); (A ";" 1017 2434 2435 148 148 [])]); (B "local_variable_declaration" 1018 2440 2457 149 149 [(B "type_identifier" 1019 2440 2447 149 149 [] # "type"); (B "variable_declarator" 1020 2448 2456 149 149 [(B "identifier" 1021 2448 2449 149 149 [] # "name"); (B "assignment_operator" 1022 2450 2451 149 149 [(A "=" 1023 2450 2451 149 149 [])]); (B "decimal_floating_point_literal" 1024 2452 2456 149 149 [] # "value")] # "declarator"); (A ";" 1025 2456 2457 149 149 [])]); (B "local_variable_declaration" 1026 2462 2479 150 150 [(B "type_identifier" 1027 2462 2469 150 150 [] # "type"); (B "variable_declarator" 1028 2470 2478 150 150 [(B "identifier" 1029 2470 2471 150 150 [] # "name"); (B "assignment_operator" 1030 2472 2473 150 150 [(A "=" 1031 2472 2473 150 150 [])]); (B "boolean" 1032 2474 2478 150 150 [(A "true" 1033 2474 2478 150 150 [])] # "value")] # "declarator"); (A ";" 1034 2478 2479 150 150 [])]); (B "local_variable_declaration" 1035 2484 2502 151 151 [(B "type_identifier" 1036 2484 2491 151 151 [] # "type"); (B "variable_declarator" 1037 2492 2501 151 151 [(B "identifier" 1038 2492 2493 151 151 [] # "name"); (B "assignment_operator" 1039 2494 2495 151 151 [(A "=" 1040 2494 2495 151 151 [])]); (B "boolean" 1041 2496 2501 151 151 [(A "false" 1042 2496 2501 151 151 [])] # "value")] # "declarator"); (A ";" 1043 2501 2502 151 151 [])]); (B "local_variable_declaration" 1044 2507 2523 152 152 [(B "type_identifier" 1045 2507 2513 152 152 [] # "type"); (B "variable_declarator" 1046 2514 2522 152 152 [(B "identifier" 1047 2514 2515 152 152 [] # "name"); (B "assignment_operator" 1048 2516 2517 152 152 [(A "=" 1049 2516 2517 152 152 [])]); (B "null_literal" 1050 2518 2522 152 152 [] # "value")] # "declarator"); (A ";" 1051 2522 2523 152 152 [])]); (A "}" 1052 2526 2527 153 153 [])] # "body")]); (B "method_declaration" 1053 2531 2604 155 157 [(B "void_type" 1054 2531 2535 155 155 [] # "type"); (B "identifier" 1055 2536 2552 155 155 [] # "name"); (B "formal_parameters" 1056 2552 2554 155 155 [(A "(" 1057 2552 2553 155 155 []); (A ")" 1058 2553 2554 155 155 [])] # "parameters"); (B "block" 1059 2555 2604 155 157 [(A "{" 1060 2555 2556 155 155 []); (B "expression_statement" 1061 2561 2579 156 156 [(B "assignment_expression" 1062 2561 2578 156 156 [(B "field_access" 1063 2561 2571 156 156 [(B "identifier" 1064 2561 2562 156 156 [] # "object"); (A "." 1065 2562 2563 156 156 []); (B "identifier" 1066 2563 2571 156 156 [] # "field")] # "left"); (B "assignment_operator" 1067 2572 2573 156 156 [(A "=" 1068 2572 2573 156 156 [])] # "operator"); (B "null_literal" 1069 2574 2578 156 156 [] # "right")]); (A ";" 1070 2578 2579 156 156 [])]); (B "expression_statement" 1071 2584 2603 157 157 [(B "assignment_expression" 1072 2584 2602 157 157 [(B "field_access" 1073 2584 2595 157 157 [(B "identifier" 1074 2584 2585 157 157 [] # "object"); (A "." 1075 2586 2587 157 157 []); (B "identifier" 1076 2587 2595 157 157 [] # "field")] # "left"); (B "assignment_operator" 1077 2596 2597 157 157 [(A "=" 1078 2596 2597 157 157 [])] # "operator"); (B "null_literal" 1079 2598 2602 157 157 [] # "right")]); (A ";" 1080 2602 2603 157 157 [])]); (A "}" 1081 2603 2604 157 157 [])] # "body")]); (B "method_declaration" 1082 2608 2645 159 159 [(B "void_type" 1083 2608 2612 159 159 [] # "type"); (B "identifier" 1084 2613 2640 159 159 [] # "name"); (B "formal_parameters" 1085 2640 2642 159 159 [(A "(" 1086 2640 2641 159 159 []); (A ")" 1087 2641 2642 159 159 [])] # "parameters"); (B "block" 1088 2643 2645 159 159 [(A "{" 1089 2643 2644 159 159 []); (A "}" 1090 2644 2645 159 159 [])] # "body")]); (B "method_declaration" 1091 2649 2686 161 161 [(B "void_type" 1092 2649 2653 161 161 [] # "type"); (B "identifier" 1093 2654 2681 161 161 [] # "name"); (B "formal_parameters" 1094 2681 2683 161 161 [(A "(" 1095 2681 2682 161 161 []); (A ")" 1096 2682 2683 161 161 [])] # "parameters"); (B "block" 1097 2684 2686 161 161 [(A "{" 1098 2684 2685 161 161 []); (A "}" 1099 2685 2686 161 161 [])] # "body")]); (B "class_declaration" 1100 2690 2827 163 171 [(A "class" 1101 2690 2695 163 163 []); (B "identifier" 1102 2696 2706 163 163 [] # "name"); (B "superclass" 1103 2707 2730 163 163 [(A "extends" 1104 2707 2714 163 163 []); (B "type_identifier" 1105 2715 2730 163 163 [])]); (B "class_body" 1106 2731 2827 163 171 [(A "{" 1107 2731 2732 163 163 []); (B "constructor_declaration" 1108 2737 2772 164 166 [(B "identifier" 1109 2737 2747 164 164 [] # "name"); (B "formal_parameters" 1110 2747 2749 164 164 [(A "(" 1111 2747 2748 164 164 []); (A ")" 1112 2748 2749 164 164 [])] # "parameters"); (B "constructor_body" 1113 2750 2772 164 166 [(A "{" 1114 2750 2751 164 164 []); (B "explicit_constructor_invocation" 1115 2758 2766 165 165 [(B "this" 1116 2758 2762 165 165 [] # "constructor"); (B "argument_list" 1117 2762 2765 165 165 [(A "(" 1118 2762 2763 165 165 []); (B "int" 1119 2763 2764 165 165 []); (A ")" 1120 2764 2765 165 165 [])] # "arguments"); (A ";" 1121 2765 2766 165 165 [])]); (A "}" 1122 2771 2772 166 166 [])] # "body")]); (B "constructor_declaration" 1123 2778 2823 168 170 [(B "identifier" 1124 2778 2788 168 168 [] # "name"); (B "formal_parameters" 1125 2788 2799 168 168 [(A "(" 1126 2788 2789 168 168 []); (B "formal_parameter" 1127 2789 2798 168 168 [(B "type_identifier" 1128 2789 2796 168 168 [] # "type"); (B "identifier" 1129 2797 2798 168 168 [] # "name")]); (A ")" 1130 2798 2799 168 168 [])] # "parameters"); (B "constructor_body" 1131 2800 2823 168 170 [(A "{" 1132 2800 2801 168 168 []); (B "explicit_constructor_invocation" 1133 2808 2817 169 169 [(B "super" 1134 2808 2813 169 169 [] # "constructor"); (B "argument_list" 1135 2813 2816 169 169 [(A "(" 1136 2813 2814 169 169 []); (B "identifier" 1137 2814 2815 169 169 []); (A ")" 1138 2815 2816 169 169 [])] # "arguments"); (A ";" 1139 2816 2817 169 169 [])]); (A "}" 1140 2822 2823 170 170 [])] # "body")]); (A "}" 1141 2826 2827 171 171 [])] # "body")]); (A "}" 1142 2828 2829 172 172 [])] # "body")])]).
Example prettier80_ExpressionClass : as_expected prettier80_ExpressionClass_source prettier80_ExpressionClass_tree (U "class Conditional extends Object {
  void assignmentExpression() {
    Integer i = 0;
    Integer j = 1;
    if (i = j) {
    }
    if (i &= j) {
    }
    if (i |= j) {
    }
    if (i ^= j) {
    }
    if (i += j) {
    }
    if (i -= j) {
    }
    if (i *= j) {
    }
    if (i /= j) {
    }
    if (i <<= j) {
    }
    if (i >>= j) {
    }
    if (i >>>= j) {
    }
  }

  void ternaryExpression() {
    Integer a = 2;
    Integer b = 1;
    Integer c = a > b ? a : b;
    a < b ? System.debug('Hi') : System.debug('Hello');
  }

  void binaryExpression() {
    Integer i = 1;
    Integer j = 2;
    Integer a;

    a = i + j;
    a = i - j;
    a = i * j;
    a = i / j;
    a = i << j;
    a = i >> j;
    a = i >>> j;
    a = i ^ j;
    a = i & j;
    a = i | j;
  }

  void castExpression() {
    String a;

    Id b = (Id) a;
    Schema.SObjectType sobjectType = ((Id) a).getSObjectType();
  }

  void instanceOfExpression() {
    SObject o;
    Boolean b = o instanceof Account;
  }

  void booleanExpression() {
    Boolean a = true;
    Boolean b = false;
    Boolean c;

    c = a == b;
    c = a === b;
    c = a !== b;
    c = a != b;
    c = a <> b;
    c = a < b;
    c = a > b;
    c = a <= b;
    c = a >= b;
    c = a && b;
    c = a || b;
  }

  void triggerVariableExpr_inOtherSuite() {
  }

  void packageVersionExpression() {
    Package.Version.Request;
  }

  void prefixExpression() {
    Integer a = 1;
    Integer b;

    b = +a;
    b = -a;
    b = !a;
    b = ~a;
    b = ++a;
    b = --a;
  }

  void postfixExpression() {
    Integer a = 1;
    Integer b;

    b = a++;
    b = a--;
  }

  void arrayExpression() {
    Integer b;

    b = a[0];
    b = a[a[0]];

    b = 'String Literal'[0];

    String longResult = o[0].callMethod('first param');
  }

  void variableExpression() {
    Integer a = 1;
    Integer b = 2;
    Integer c = a + b;
  }

  void methodCallExpression() {
    SomeObject o = new SomeObject();
  }

  void javaMethodCallExpression_notNeeded() {
  }

  void javaVariableExpression_notNeeded() {
  }

  void superVariableExpression() {
    super.methodCall();
    super.methodCall(1, 2, 3);
  }

  void thisVariableExpression() {
    this.a = 'Hello World';
    System.debug(this.a + this.b);
  }

  void longStaticMethodCallChainExpression() {
  }

  void classRefExpression() {
    System.Type t = Integer.class;
  }

  void literalExpression() {
    String a = 'Hello';
    Integer b = 1;
    Long c = 2147483648L;
    Double d = 0.1d;
    Decimal e = 2.14;
    Boolean f = true;
    Boolean g = false;
    Object h = null;
  }

  void dottedExprMethod() {
    a.Field__c = null;
    a.Field__c = null;
  }

  void soqlExpression_inOtherSuite() {
  }

  void soslExpression_inOtherSuite() {
  }

  class InnerClass extends ExpressionClass {
    InnerClass() {
      this(1);
    }

    InnerClass(Integer i) {
      super(i);
    }
  }
}
").
Proof. apply run_test_ok. vm_compute. reflexivity. Qed.

(* tests/prettier80/GenericClass.in *)
Definition prettier80_GenericClass_source : ustr := U "class GenericOuterClass<T> extends AnotherClass<T> {
  class InnerClass<K, V> {}

  interface InnerGenericInterface<K, V> {}
}
".
Definition prettier80_GenericClass_tree : span := (B "parser_output" 1 0 127 0 5 [(B "class_declaration" 2 0 126 0 4 [(A "class" 3 0 5 0 0 []); (B "identifier" 4 6 23 0 0 [] # "name"); (B "type_parameters" 5 23 26 0 0 [(A "<" 6 23 24 0 0 []); (B "type_parameter" 7 24 25 0 0 [(B "type_identifier" 8 24 25 0 0 [])]); (A ">" 9 25 26 0 0 [])]); (B "superclass" 10 27 50 0 0 [(A "extends" 11 27 34 0 0 []); (B "generic_type" 12 35 50 0 0 [(B "type_identifier" 13 35 47 0 0 []); (B "type_arguments" 14 47 50 0 0 [(A "<" 15 47 48 0 0 []); (B "type_identifier" 16 48 49 0 0 []); (A ">" 17 49 50 0 0 [])])])]); (B "class_body" 18 51 126 0 4 [(A "{" 19 51 52 0 0 []); (B "class_declaration" 20 55 80 1 1 [(A "class" 21 55 60 1 1 []); (B "identifier" 22 61 71 1 1 [] # "name"); (B "type_parameters" 23 71 77 1 1 [(A "<" 24 71 72 1 1 []); (B "type_parameter" 25 72 73 1 1 [(B "type_identifier" 26 72 73 1 1 [])]); (A "," 27 73 74 1 1 []); (B "type_parameter" 28 75 76 1 1 [(B "type_identifier" 29 75 76 1 1 [])]); (A ">" 30 76 77 1 1 [])]); (B "class_body" 31 78 80 1 1 [(A "{" 32 78 79 1 1 []); (A "}" 33 79 80 1 1 [])] # "body")]); (B "interface_declaration" 34 84 124 3 3 [(A "interface" 35 84 93 3 3 []); (B "identifier" 36 94 115 3 3 [] # "name"); (B "type_parameters" 37 115 121 3 3 [(A "<" 38 115 116 3 3 []); (B "type_parameter" 39 116 117 3 3 [(B "type_identifier" 40 116 117 3 3 [])]); (A "," 41 117 118 3 3 []); (B "type_parameter" 42 119 120 3 3 [(B "type_identifier" 43 119 120 3 3 [])]); (A ">" 44 120 121 3 3 [])]); (B "interface_body" 45 122 124 3 3 [(A "{" 46 122 123 3 3 []); (A "}" 47 123 124 3 3 [])] # "body")]); (A "}" 48 125 126 4 4 [])] # "body")])]).
Example prettier80_GenericClass : as_expected prettier80_GenericClass_source prettier80_GenericClass_tree (U "class GenericOuterClass<T> extends AnotherClass<T> {
  class InnerClass<K, V> {
  }

  interface InnerGenericInterface<K, V> {
  }
}
").
Proof. apply run_test_ok. vm_compute. reflexivity. Qed.

(* tests/prettier80/GenericInterface.in *)
Definition prettier80_GenericInterface_source : ustr := U "interface GenericInterface<T> extends AnotherInterface<T> {
}
".
Definition prettier80_GenericInterface_tree : span := (B "parser_output" 1 0 62 0 2 [(B "interface_declaration" 2 0 61 0 1 [(A "interface" 3 0 9 0 0 []); (B "identifier" 4 10 26 0 0 [] # "name"); (B "type_parameters" 5 26 29 0 0 [(A "<" 6 26 27 0 0 []); (B "type_parameter" 7 27 28 0 0 [(B "type_identifier" 8 27 28 0 0 [])]); (A ">" 9 28 29 0 0 [])]); (B "extends_interfaces" 10 30 57 0 0 [(A "extends" 11 30 37 0 0 []); (B "type_list" 12 38 57 0 0 [(B "generic_type" 13 38 57 0 0 [(B "type_identifier" 14 38 54 0 0 []); (B "type_arguments" 15 54 57 0 0 [(A "<" 16 54 55 0 0 []); (B "type_identifier" 17 55 56 0 0 []); (A ">" 18 56 57 0 0 [])])])])]); (B "interface_body" 19 58 61 0 1 [(A "{" 20 58 59 0 0 []); (A "}" 21 60 61 1 1 [])] # "body")])]).
Example prettier80_GenericInterface : as_expected prettier80_GenericInterface_source prettier80_GenericInterface_tree (U "interface GenericInterface<T> extends AnotherInterface<T> {
}
").
Proof. apply run_test_ok. vm_compute. reflexivity. Qed.

(* tests/prettier80/GetterSetter.in *)
Definition prettier80_GetterSetter_source : ustr := U "class GetterSetter {
  public String shortProperty {
    get;
    set;
  }

  public String veryLongPropertyNameThatWillExceedTheDefaultOfCharacterAndWillBreak { get; set; }

  public String nonDefaultGetter {
    get {
      return 'Hello';
    }

    private set;
  }

  public String nonDefaultSetter {
    private get;

    set {
      nonDefaultSetter = value;
    }
  }

  public String nonDefaultGetterSetter {
    get {
      return nonDefaultGetterSetter;
    }

    set {
      nonDefaultGetterSetter = value;
    }
  }
}
".
Definition prettier80_GetterSetter_tree : span := (B "parser_output" 1 0 532 0 34 [(B "class_declaration" 2 0 531 0 33 [(A "class" 3 0 5 0 0 []); (B "identifier" 4 6 18 0 0 [] # "name"); (B "class_body" 5 19 531 0 33 [(A "{" 6 19 20 0 0 []); (B "field_declaration" 7 23 74 1 4 [(B "modifiers" 8 23 29 1 1 [(B "modifier" 9 23 29 1 1 [(B "public" 10 23 29 1 1 [(A "public" 11 23 29 1 1 [])])])]); (B "type_identifier" 12 30 36 1 1 [] # "type"); (B "variable_declarator" 13 37 50 1 1 [(B "identifier" 14 37 50 1 1 [] # "name")] # "declarator"); (B "accessor_list" 15 51 74 1 4 [(A "{" 16 51 52 1 1 []); (B "accessor_declaration" 17 57 61 2 2 [(A "get" 18 57 60 2 2 [] # "accessor"); (A ";" 19 60 61 2 2 [])]); (B "accessor_declaration" 20 66 70 3 3 [(A "set" 21 66 69 3 3 [] # "accessor"); (A ";" 22 69 70 3 3 [])]); (A "}" 23 73 74 4 4 [])])]); (B "field_declaration" 24 78 173 6 6 [(B "modifiers" 25 78 84 6 6 [(B "modifier" 26 78 84 6 6 [(B "public" 27 78 84 6 6 [(A "public" 28 78 84 6 6 [])])])]); (B "type_identifier" 29 85 91 6 6 [] # "type"); (B "variable_declarator" 30 92 159 6 6 [(B "identifier" 31 92 159 6 6 [] # "name")] # "declarator"); (B "accessor_list" 32 160 173 6 6 [(A "{" 33 160 161 6 6 []); (B "accessor_declaration" 34 162 166 6 6 [(A "get" 35 162 165 6 6 [] # "accessor"); (A ";" 36 165 166 6 6 [])]); (B "accessor_declaration" 37 167 171 6 6 [(A "set" 38 167 170 6 6 [] # "accessor"); (A ";" 39 170 171 6 6 [])]); (A "}" 40 172 173 6 6 [])])]); (B "field_declaration" 41 177 269 8 14 [(B "modifiers" 42 177 183 8 8 [(B "modifier" 43 177 183 8 8 [(B "public" 44 177 183 8 8 [(A "public" 45 177 183 8 8 [])])])]); (B "type_identifier" 46 184 190 8 8 [] # "type"); (B "variable_declarator" 47 191 207 8 8 [(B "identifier" 48 191 207 8 8 [] # "name")] # "declarator"); (B "accessor_list" 49 208 269 8 14 [(A "{" 50 208 209 8 8 []); (B "accessor_declaration" 51 214 247 9 11 [(A "get" 52 214 217 9 9 [] # "accessor"); (B "block" 53 218 247 9 11 [(A "{" 54 218 219 9 9 []); (B "return_statement" 55 226 241 10 10 [(A "return" 56 226 232 10 10 []); (B "string_literal" 57 233 240 10 10 []); (A ";" 58 240 241 10 10 [])]); (A "}" 59 246 247 11 11 [])] # "body")]); (B "accessor_declaration" 60 253 265 13 13 [(B "modifiers" 61 253 260 13 13 [(B "modifier" 62 253 260 13 13 [(B "private" 63 253 260 13 13 [(A "private" 64 253 260 13 13 [])])])]); (A "set" 65 261 264 13 13 [] # "accessor"); (A ";" 66 264 265 13 13 [])]); (A "}" 67 268 269 14 14 [])])]); (B "field_declaration" 68 273 375 16 22 [(B "modifiers" 69 273 279 16 16 [(B "modifier" 70 273 279 16 16 [(B "public" 71 273 279 16 16 [(A "public" 72 273 279 16 16 [])])])]); (B "type_identifier" 73 280 286 16 16 [] # "type"); (B "variable_declarator" 74 287 303 16 16 [(B "identifier" 75 287 303 16 16 [] # "name")] # "declarator"); (B "accessor_list" 76 304 375 16 22 [(A "{" 77 304 305 16 16 []); (B "accessor_declaration" 78 310 322 17 17 [(B "modifiers" 79 310 317 17 17 [(B "modifier" 80 310 317 17 17 [(B "private" 81 310 317 17 17 [(A "private" 82 310 317 17 17 [])])])]); (A "get" 83 318 321 17 17 [] # "accessor"); (A ";" 84 321 322 17 17 [])]); (B "accessor_declaration" 85 328 371 19 21 [(A "set" 86 328 331 19 19 [] # "accessor"); (B "block" 87 332 371 19 21 [(A "{" 88 332 333 19 19 []); (B "expression_statement" 89 340 365 20 20 [(B "assignment_expression" 90 340 364 20 20 [(B "identifier" 91 340 356 20 20 [] # "left"); (B "assignment_operator" 92 357 358 20 20 [(A "=" 93 357 358 20 20 [])] # "operator"); (B "identifier" 94 359 364 20 20 [] # "right")]); (A ";" 95 364 365 20 20 [])]); (A "}" 96 370 371 21 21 [])] # "body")]); (A "}" 97 374 375 22 22 [])])]); (B "field_declaration" 98 379 529 24 32 [(B "modifiers" 99 379 385 24 24 [(B "modifier" 100 379 385 24 24 [(B "public" 101 379 385 24 24 [(A "public" 102 379 385 24 24 [])])])]); (B "type_identifier" 103 386 392 24 24 [] # "type"); (B "variable_declarator" 104 393 415 24 24 [(B "identifier" 105 393 415 24 24 [] # "name")] # "declarator"); (B "accessor_list" 106 416 529 24 32 [(A "{" 107 416 417 24 24 []); (B "accessor_declaration" 108 422 470 25 27 [(A "get" 109 422 425 25 25 [] # "accessor"); (B "block" 110 426 470 25 27 [(A "{" 111 426 427 25 25 []); (B "return_statement" 112 434 464 26 26 [(A "return" 113 434 440 26 26 []); (B "identifier" 114 441 463 26 26 []); (A ";" 115 463 464 26 26 [])]); (A "}" 116 469 470 27 27 [])] # "body")]); (B "accessor_declaration" 117 476 525 29 31 [(A "set" 118 476 479 29 29 [] # "accessor"); (B "block" 119 480 525 29 31 [(A "{" 120 480 481 29 29 []); (B "expression_statement" 121 488 519 30 30 [(B "assignment_expression" 122 488 518 30 30 [(B "identifier" 123 488 510 30 30 [] # "left"); (B "assignment_operator" 124 511 512 30 30 [(A "=" 125 511 512 30 30 [])] # "operator"); (B "identifier" 126 513 518 30 30 [] # "right")]); (A ";" 127 518 519 30 30 [])]); (A "}" 128 524 525 31 31 [])] # "body")]); (A "}" 129 528 529 32 32 [])])]); (A "}" 130 530 531 33 33 [])] # "body")])]).
Example prettier80_GetterSetter : as_expected prettier80_GetterSetter_source prettier80_GetterSetter_tree (U "class GetterSetter {
  public String shortProperty { get; set; }

  public String veryLongPropertyNameThatWillExceedTheDefaultOfCharacterAndWillBreak {
    get;
    set;
  }

  public String nonDefaultGetter {
    get {
      return 'Hello';
    }
    private set;
  }

  public String nonDefaultSetter {
    private get;
    set {
      nonDefaultSetter = value;
    }
  }

  public String nonDefaultGetterSetter {
    get {
      return nonDefaultGetterSetter;
    }
    set {
      nonDefaultGetterSetter = value;
    }
  }
}
").
Proof. apply run_test_ok. vm_compute. reflexivity. Qed.

(* tests/prettier80/GlobalEmptyClass.in *)
Definition prettier80_GlobalEmptyClass_source : ustr := U "global class GlobalEmptyClass
{}

".
Definition prettier80_GlobalEmptyClass_tree : span := (B "parser_output" 1 0 34 0 3 [(B "class_declaration" 2 0 32 0 1 [(B "modifiers" 3 0 6 0 0 [(B "modifier" 4 0 6 0 0 [(B "global" 5 0 6 0 0 [(A "global" 6 0 6 0 0 [])])])]); (A "class" 7 7 12 0 0 []); (B "identifier" 8 13 29 0 0 [] # "name"); (B "class_body" 9 30 32 1 1 [(A "{" 10 30 31 1 1 []); (A "}" 11 31 32 1 1 [])] # "body")])]).
Example prettier80_GlobalEmptyClass : as_expected prettier80_GlobalEmptyClass_source prettier80_GlobalEmptyClass_tree (U "global class GlobalEmptyClass {
}
").
Proof. apply run_test_ok. vm_compute. reflexivity. Qed.

(* tests/prettier80/InterfaceClass.in *)
Definition prettier80_InterfaceClass_source : ustr := U "public interface OuterInterface extends ExtendedInterface {
  void methodOne();
  void methodTwo();
}
".
Definition prettier80_InterfaceClass_tree : span := (B "parser_output" 1 0 102 0 4 [(B "interface_declaration" 2 0 101 0 3 [(B "modifiers" 3 0 6 0 0 [(B "modifier" 4 0 6 0 0 [(B "public" 5 0 6 0 0 [(A "public" 6 0 6 0 0 [])])])]); (A "interface" 7 7 16 0 0 []); (B "identifier" 8 17 31 0 0 [] # "name"); (B "extends_interfaces" 9 32 57 0 0 [(A "extends" 10 32 39 0 0 []); (B "type_list" 11 40 57 0 0 [(B "type_identifier" 12 40 57 0 0 [])])]); (B "interface_body" 13 58 101 0 3 [(A "{" 14 58 59 0 0 []); (B "method_declaration" 15 62 79 1 1 [(B "void_type" 16 62 66 1 1 [] # "type"); (B "identifier" 17 67 76 1 1 [] # "name"); (B "formal_parameters" 18 76 78 1 1 [(A "(" 19 76 77 1 1 []); (A ")" 20 77 78 1 1 [])] # "parameters"); (A ";" 21 78 79 1 1 [])]); (B "method_declaration" 22 82 99 2 2 [(B "void_type" 23 82 86 2 2 [] # "type"); (B "identifier" 24 87 96 2 2 [] # "name"); (B "formal_parameters" 25 96 98 2 2 [(A "(" 26 96 97 2 2 []); (A ")" 27 97 98 2 2 [])] # "parameters"); (A ";" 28 98 99 2 2 [])]); (A "}" 29 100 101 3 3 [])] # "body")])]).
Example prettier80_InterfaceClass : as_expected prettier80_InterfaceClass_source prettier80_InterfaceClass_tree (U "public interface OuterInterface extends ExtendedInterface {
  void methodOne();
  void methodTwo();
}
").
Proof. apply run_test_ok. vm_compute. reflexivity. Qed.

(* tests/prettier80/Java.in *)
Definition prettier80_Java_source : ustr := U "public class Java {
  public void testJavaVariable() {
    Integer i = java:java.lang.Integer.MAX_VALUE;
    List<Integer> l = java:java.util.Collections.EMPTY_LIST;

    java:java.util.List propList = new java:java.util.ArrayList();
    java:java.util.Collections.copy(propList, propList);
 
    new java:java.lang.Double(0);
    new java:java.lang.Double(0L);
    new java:java.lang.Double(0.0d);
  }
}
".
Definition prettier80_Java_tree : span := (B "parser_output" 1 0 405 0 13 [(B "class_declaration" 2 0 404 0 12 [(B "modifiers" 3 0 6 0 0 [(B "modifier" 4 0 6 0 0 [(B "public" 5 0 6 0 0 [(A "public" 6 0 6 0 0 [])])])]); (A "class" 7 7 12 0 0 []); (B "identifier" 8 13 17 0 0 [] # "name"); (B "class_body" 9 18 404 0 12 [(A "{" 10 18 19 0 0 []); (B "method_declaration" 11 22 402 1 11 [(B "modifiers" 12 22 28 1 1 [(B "modifier" 13 22 28 1 1 [(B "public" 14 22 28 1 1 [(A "public" 15 22 28 1 1 [])])])]); (B "void_type" 16 29 33 1 1 [] # "type"); (B "identifier" 17 34 50 1 1 [] # "name"); (B "formal_parameters" 18 50 52 1 1 [(A "(" 19 50 51 1 1 []); (A ")" 20 51 52 1 1 [])] # "parameters"); (B "block" 21 53 402 1 11 [(A "{" 22 53 54 1 1 []); (B "local_variable_declaration" 23 59 104 2 2 [(B "type_identifier" 24 59 66 2 2 [] # "type"); (B "variable_declarator" 25 67 103 2 2 [(B "identifier" 26 67 68 2 2 [] # "name"); (B "assignment_operator" 27 69 70 2 2 [(A "=" 28 69 70 2 2 [])]); (B "java_field_access" 29 71 103 2 2 [(A "java" 30 71 75 2 2 []); (A ":" 31 75 76 2 2 []); (B "field_access" 32 76 103 2 2 [(B "field_access" 33 76 93 2 2 [(B "field_access" 34 76 85 2 2 [(B "identifier" 35 76 80 2 2 [] # "object"); (A "." 36 80 81 2 2 []); (B "identifier" 37 81 85 2 2 [] # "field")] # "object"); (A "." 38 85 86 2 2 []); (B "identifier" 39 86 93 2 2 [] # "field")] # "object"); (A "." 40 93 94 2 2 []); (B "identifier" 41 94 103 2 2 [] # "field")])] # "value")] # "declarator"); (A ";" 42 103 104 2 2 [])]); (B "local_variable_declaration" 43 109 165 3 3 [(B "generic_type" 44 109 122 3 3 [(B "type_identifier" 45 109 113 3 3 []); (B "type_arguments" 46 113 122 3 3 [(A "<" 47 113 114 3 3 []); (B "type_identifier" 48 114 121 3 3 []); (A ">" 49 121 122 3 3 [])])] # "type"); (B "variable_declarator" 50 123 164 3 3 [(B "identifier" 51 123 124 3 3 [] # "name"); (B "assignment_operator" 52 125 126 3 3 [(A "=" 53 125 126 3 3 [])]); (B "java_field_access" 54 127 164 3 3 [(A "java" 55 127 131 3 3 []); (A ":" 56 131 132 3 3 []); (B "field_access" 57 132 164 3 3 [(B "field_access" 58 132 153 3 3 [(B "field_access" 59 132 141 3 3 [(B "identifier" 60 132 136 3 3 [] # "object"); (A "." 61 136 137 3 3 []); (B "identifier" 62 137 141 3 3 [] # "field")] # "object"); (A "." 63 141 142 3 3 []); (B "identifier" 64 142 153 3 3 [] # "field")] # "object"); (A "." 65 153 154 3 3 []); (B "identifier" 66 154 164 3 3 [] # "field")])] # "value")] # "declarator"); (A ";" 67 164 165 3 3 [])]); (B "local_variable_declaration" 68 171 233 5 5 [(B "java_type" 69 171 190 5 5 [(A "java" 70 171 175 5 5 []); (A ":" 71 175 176 5 5 []); (B "scoped_type_identifier" 72 176 190 5 5 [(B "scoped_type_identifier" 73 176 185 5 5 [(B "type_identifier" 74 176 180 5 5 []); (A "." 75 180 181 5 5 []); (B "type_identifier" 76 181 185 5 5 [])]); (A "." 77 185 186 5 5 []); (B "type_identifier" 78 186 190 5 5 [])])] # "type"); (B "variable_declarator" 79 191 232 5 5 [(B "identifier" 80 191 199 5 5 [] # "name"); (B "assignment_operator" 81 200 201 5 5 [(A "=" 82 200 201 5 5 [])]); (B "object_creation_expression" 83 202 232 5 5 [(A "new" 84 202 205 5 5 []); (B "java_type" 85 206 230 5 5 [(A "java" 86 206 210 5 5 []); (A ":" 87 210 211 5 5 []); (B "scoped_type_identifier" 88 211 230 5 5 [(B "scoped_type_identifier" 89 211 220 5 5 [(B "type_identifier" 90 211 215 5 5 []); (A "." 91 215 216 5 5 []); (B "type_identifier" 92 216 220 5 5 [])]); (A "." 93 220 221 5 5 []); (B "type_identifier" 94 221 230 5 5 [])])] # "type"); (B "argument_list" 95 230 232 5 5 [(A "(" 96 230 231 5 5 []); (A ")" 97 231 232 5 5 [])] # "arguments")] # "value")] # "declarator"); (A ";" 98 232 233 5 5 [])]); (B "expression_statement" 99 238 290 6 6 [(B "method_invocation" 100 238 289 6 6 [(B "java_field_access" 101 238 264 6 6 [(A "java" 102 238 242 6 6 []); (A ":" 103 242 243 6 6 []); (B "field_access" 104 243 264 6 6 [(B "field_access" 105 243 252 6 6 [(B "identifier" 106 243 247 6 6 [] # "object"); (A "." 107 247 248 6 6 []); (B "identifier" 108 248 252 6 6 [] # "field")] # "object"); (A "." 109 252 253 6 6 []); (B "identifier" 110 253 264 6 6 [] # "field")])] # "object"); (A "." 111 264 265 6 6 []); (B "identifier" 112 265 269 6 6 [] # "name"); (B "argument_list" 113 269 289 6 6 [(A "(" 114 269 270 6 6 []); (B "identifier" 115 270 278 6 6 []); (A "," 116 278 279 6 6 []); (B "identifier" 117 280 288 6 6 []); (A ")" 118 288 289 6 6 [])] # "arguments")]); (A ";" 119 289 290 6 6 [])]); (B "expression_statement" 120 297 326 8 8 [(B "object_creation_expression" 121 297 325 8 8 [(A "new" 122 297 300 8 8 []); (B "java_type" 123 301 322 8 8 [(A "java" 124 301 305 8 8 []); (A ":" 125 305 306 8 8 []); (B "scoped_type_identifier" 126 306 322 8 8 [(B "scoped_type_identifier" 127 306 315 8 8 [(B "type_identifier" 128 306 310 8 8 []); (A "." 129 310 311 8 8 []); (B "type_identifier" 130 311 315 8 8 [])]); (A "." 131 315 316 8 8 []); (B "type_identifier" 132 316 322 8 8 [])])] # "type"); (B "argument_list" 133 322 325 8 8 [(A "(" 134 322 323 8 8 []); (B "int" 135 323 324 8 8 []); (A ")" 136 324 325 8 8 [])] # "arguments")]); (A ";" 137 325 326 8 8 [])]); (B "expression_statement" 138 331 361 9 9 [(B "object_creation_expression" 139 331 360 9 9 [(A "new" 140 331 334 9 9 []); (B "java_type" 141 335 356 9 9 [(A "java" 142 335 339 9 9 []); (A ":" 143 339 340 9 9 []); (B "scoped_type_identifier" 144 340 356 9 9 [(B "scoped_type_identifier" 145 340 349 9 9 [(B "type_identifier" 146 340 344 9 9 []); (A "." 147 344 345 9 9 []); (B "type_identifier" 148 345 349 9 9 [])]); (A "." 149 349 350 9 9 []); (B "type_identifier" 150 350 356 9 9 [])])] # "type"); (B "argument_list" 151 356 360 9 9 [(A "(" 152 356 357 9 9 []); (B "int" 153 357 359 9 9 []); (A ")" 154 359 360 9 9 [])] # "arguments")]); (A ";" 155 360 361 9 9 [])]); (B "expression_statement" 156 366 398 10 10 [(B "object_creation_expression" 157 366 397 10 10 [(A "new" 158 366 369 10 10 []); (B "java_type" 159 370 391 10 10 [(A "java" 160 370 374 10 10 []); (A ":" 161 374 375 10 10 []); (B "scoped_type_identifier" 162 375 391 10 10 [(B "scoped_type_identifier" 163 375 384 10 10 [(B "type_identifier" 164 375 379 10 10 []); (A "." 165 379 380 10 10 []); (B "type_identifier" 166 380 384 10 10 [])]); (A "." 167 384 385 10 10 []); (B "type_identifier" 168 385 391 10 10 [])])] # "type"); (B "argument_list" 169 391 397 10 10 [(A "(" 170 391 392 10 10 []); (B "decimal_floating_point_literal" 171 392 396 10 10 []); (A ")" 172 396 397 10 10 [])] # "arguments")]); (A ";" 173 397 398 10 10 [])]); (A "}" 174 401 402 11 11 [])] # "body")]); (A "}" 175 403 404 12 12 [])] # "body")])]).
Example prettier80_Java : as_expected prettier80_Java_source prettier80_Java_tree (U "public class Java {
  public void testJavaVariable() {
    Integer i = java:java.lang.Integer.MAX_VALUE;
    List<Integer> l = java:java.util.Collections.EMPTY_LIST;

    java:java.util.List propList = new java:java.util.ArrayList();
    java:java.util.Collections.copy(propList, propList);

    new java:java.lang.Double(0);
    new java:java.lang.Double(0L);
    new java:java.lang.Double(0.0d);
  }
}
").
Proof. apply run_test_ok. vm_compute. reflexivity. Qed.

(* tests/prettier80/Literal.in *)
Definition prettier80_Literal_source : ustr := U "class Literal {
  void nullExpression() {
    return null;
    return NULL;
    return Null;
  }
  void stringLiteral() {
    return 'a';
    return '""non-escaped quotes""';
  }
  void integerLiteral() {
    return 1;
  }
  void longLiteral() {
    return 2147483648L;
    return 2147483640L;
    return 2312321321L ;
  }
  void decimalLiteral() {
    return 1.01D;
    return 1.0D;
    return 1.00D;
    return 1.30D;
    return 1.30D ;
  }
  void doubleLiteral() {
    return 1.1;
    return 1.0;
    return 1.00;
    return 1.30;
  }
  void trueLiteral() {
    return true;
    return TRUE;
    return True;
  }
  void falseLiteral() {
    return false;
    return FALSE;
    return False;
  }
  void queryEscapedString() {
    return [SELECT Name FROM Account WHERE Name LIKE '\_'];
    return [SELECT Name FROM Account WHERE Name LIKE '\%'];
    return [SELECT Name FROM Account WHERE Name LIKE '\n'];
    return [SELECT Name FROM Account WHERE Name LIKE '\r\n'];
    return [SELECT Name FROM Account WHERE Name LIKE '\\Hi'];
    return [SELECT Name FROM Account WHERE Name = '_'];
    return [SELECT Name FROM Account WHERE Name = '%'];
    return [SELECT Name FROM Account WHERE Name = '\n'];
    return [SELECT Name FROM Account WHERE Name = '\r\n'];
    return [SELECT Name FROM Account WHERE Name = '\\Hi'];
  }
}
".
Definition prettier80_Literal_tree : span := (B "parser_output" 1 0 1323 0 54 [(B "class_declaration" 2 0 1322 0 53 [(A "class" 3 0 5 0 0 []); (B "identifier" 4 6 13 0 0 [] # "name"); (B "class_body" 5 14 1322 0 53 [(A "{" 6 14 15 0 0 []); (B "method_declaration" 7 18 96 1 5 [(B "void_type" 8 18 22 1 1 [] # "type"); (B "identifier" 9 23 37 1 1 [] # "name"); (B "formal_parameters" 10 37 39 1 1 [(A "(" 11 37 38 1 1 []); (A ")" 12 38 39 1 1 [])] # "parameters"); (B "block" 13 40 96 1 5 [(A "{" 14 40 41 1 1 []); (B "return_statement" 15 46 58 2 2 [(A "return" 16 46 52 2 2 []); (B "null_literal" 17 53 57 2 2 []); (A ";" 18 57 58 2 2 [])]); (B "return_statement" 19 63 75 3 3 [(A "return" 20 63 69 3 3 []); (B "null_literal" 21 70 74 3 3 []); (A ";" 22 74 75 3 3 [])]); (B "return_statement" 23 80 92 4 4 [(A "return" 24 80 86 4 4 []); (B "null_literal" 25 87 91 4 4 []); (A ";" 26 91 92 4 4 [])]); (A "}" 27 95 96 5 5 [])] # "body")]); (B "method_declaration" 28 99 176 6 9 [(B "void_type" 29 99 103 6 6 [] # "type"); (B "identifier" 30 104 117 6 6 [] # "name"); (B "formal_parameters" 31 117 119 6 6 [(A "(" 32 117 118 6 6 []); (A ")" 33 118 119 6 6 [])] # "parameters"); (B "block" 34 120 176 6 9 [(A "{" 35 120 121 6 6 []); (B "return_statement" 36 126 137 7 7 [(A "return" 37 126 132 7 7 []); (B "string_literal" 38 133 136 7 7 []); (A ";" 39 136 137 7 7 [])]); (B "return_statement" 40 142 172 8 8 [(A "return" 41 142 148 8 8 []); (B "string_literal" 42 149 171 8 8 []); (A ";" 43 171 172 8 8 [])]); (A "}" 44 175 176 9 9 [])] # "body")]); (B "method_declaration" 45 179 220 10 12 [(B "void_type" 46 179 183 10 10 [] # "type"); (B "identifier" 47 184 198 10 10 [] # "name"); (B "formal_parameters" 48 198 200 10 10 [(A "(" 49 198 199 10 10 []); (A ")" 50 199 200 10 10 [])] # "parameters"); (B "block" 51 201 220 10 12 [(A "{" 52 201 202 10 10 []); (B "return_statement" 53 207 216 11 11 [(A "return" 54 207 213 11 11 []); (B "int" 55 214 215 11 11 []); (A ";" 56 215 216 11 11 [])]); (A "}" 57 219 220 12 12 [])] # "body")]); (B "method_declaration" 58 223 320 13 17 [(B "void_type" 59 223 227 13 13 [] # "type"); (B "identifier" 60 228 239 13 13 [] # "name"); (B "formal_parameters" 61 239 241 13 13 [(A "(" 62 239 240 13 13 []); (A ")" 63 240 241 13 13 [])] # "parameters"); (B "block" 64 242 320 13 17 [(A "{" 65 242 243 13 13 []); (B "return_statement" 66 248 267 14 14 [(A "return" 67 248 254 14 14 []); (B "int" 68 255 266 14 14 []); (A ";" 69 266 267 14 14 [])]); (B "return_statement" 70 272 291 15 15 [(A "return" 71 272 278 15 15 []); (B "int" 72 279 290 15 15 []); (A ";" 73 290 291 15 15 [])]); (B "return_statement" 74 296 316 16 16 [(A "return" 75 296 302 16 16 []); (B "int" 76 303 314 16 16 []); (A ";" 77 315 316 16 16 [])]); (A "}" 78 319 320 17 17 [])] # "body")]); (B "method_declaration" 79 323 440 18 24 [(B "void_type" 80 323 327 18 18 [] # "type"); (B "identifier" 81 328 342 18 18 [] # "name"); (B "formal_parameters" 82 342 344 18 18 [(A "(" 83 342 343 18 18 []); (A ")" 84 343 344 18 18 [])] # "parameters"); (B "block" 85 345 440 18 24 [(A "{" 86 345 346 18 18 []); (B "return_statement" 87 351 364 19 19 [(A "return" 88 351 357 19 19 []); (B "decimal_floating_point_literal" 89 358 363 19 19 []); (A ";" 90 363 364 19 19 [])]); (B "return_statement" 91 369 381 20 20 [(A "return" 92 369 375 20 20 []); (B "decimal_floating_point_literal" 93 376 380 20 20 []); (A ";" 94 380 381 20 20 [])]); (B "return_statement" 95 386 399 21 21 [(A "return" 96 386 392 21 21 []); (B "decimal_floating_point_literal" 97 393 398 21 21 []); (A ";" 98 398 399 21 21 [])]); (B "return_statement" 99 404 417 22 22 [(A "return" 100 404 410 22 22 []); (B "decimal_floating_point_literal" 101 411 416 22 22 []); (A ";" 102 416 417 22 22 [])]); (B "return_statement" 103 422 436 23 23 [(A "return" 104 422 428 23 23 []); (B "decimal_floating_point_literal" 105 429 434 23 23 []); (A ";" 106 435 436 23 23 [])]); (A "}" 107 439 440 24 24 [])] # "body")]); (B "method_declaration" 108 443 535 25 30 [(B "void_type" 109 443 447 25 25 [] # "type"); (B "identifier" 110 448 461 25 25 [] # "name"); (B "formal_parameters" 111 461 463 25 25 [(A "(" 112 461 462 25 25 []); (A ")" 113 462 463 25 25 [])] # "parameters"); (B "block" 114 464 535 25 30 [(A "{" 115 464 465 25 25 []); (B "return_statement" 116 470 481 26 26 [(A "return" 117 470 476 26 26 []); (B "decimal_floating_point_literal" 118 477 480 26 26 []); (A ";" 119 480 481 26 26 [])]); (B "return_statement" 120 486 497 27 27 [(A "return" 121 486 492 27 27 []); (B "decimal_floating_point_literal" 122 493 496 27 27 []); (A ";" 123 496 497 27 27 [])]); (B "return_statement" 124 502 514 28 28 [(A "return" 125 502 508 28 28 []); (B "decimal_floating_point_literal" 126 509 513 28 28 []); (A ";" 127 513 514 28 28 [])]); (B "return_statement" 128 519 531 29 29 [(A "return" 129 519 525 29 29 []); (B "decimal_floating_point_literal" 130 526 530 29 29 []); (A ";" 131 530 531 29 29 [])]); (A "}" 132 534 535 30 30 [])] # "body")]); (B "method_declaration" 133 538 613 31 35 [(B "void_type" 134 538 542 31 31 [] # "type"); (B "identifier" 135 543 554 31 31 [] # "name"); (B "formal_parameters" 136 554 556 31 31 [(A "(" 137 554 555 31 31 []); (A ")" 138 555 556 31 31 [])] # "parameters"); (B "block" 139 557 613 31 35 [(A "{" 140 557 558 31 31 []); (B "return_statement" 141 563 575 32 32 [(A "return" 142 563 569 32 32 []); (B "boolean" 143 570 574 32 32 [(A "true" 144 570 574 32 32 [])]); (A ";" 145 574 575 32 32 [])]); (B "return_statement" 146 580 592 33 33 [(A "return" 147 580 586 33 33 []); (B "boolean" 148 587 591 33 33 [(A "TRUE" 149 587 591 33 33 [])]); (A ";" 150 591 592 33 33 [])]); (B "return_statement" 151 597 609 34 34 [(A "return" 152 597 603 34 34 []); (B "boolean" 153 604 608 34 34 [(A "True" 154 604 608 34 34 [])]); (A ";" 155 608 609 34 34 [])]); (A "}" 156 612 613 35 35 [])] # "body")]); (B "method_declaration" 157 616 695 36 40 [(B "void_type" 158 616 620 36 36 [] # "type"); (B "identifier" 159 621 633 36 36 [] # "name"); (B "formal_parameters" 160 633 635 36 36 [(A "(" 161 633 634 36 36 []); (A ")" 162 634 635 36 36 [])] # "parameters"); (B "block" 163 636 695 36 40 [(A "{" 164 636 637 36 36 []); (B "return_statement" 165 642 655 37 37 [(A "return" 166 642 648 37 37 []); (B "boolean" 167 649 654 37 37 [(A "false" 168 649 654 37 37 [])]); (A ";" 169 654 655 37 37 [])]); (B "return_statement" 170 660 673 38 38 [(A "return" 171 660 666 38 38 []); (B "boolean" 172 667 672 38 38 [(A "FALSE" 173 667 672 38 38 [])]); (A ";" 174 672 673 38 38 [])]); (B "return_statement" 175 678 691 39 39 [(A "return" 176 678 684 39 39 []); (B "boolean" 177 685 690 39 39 [(A "False" 178 685 690 39 39 [])]); (A ";" 179 690 691 39 39 [])]); (A "}" 180 694 695 40 40 [])] # "body")]); (B "method_declaration" 181 698 1320 41 52 [(B "void_type" 182 698 702 41 41 [] # "type"); (B "identifier" 183 703 721 41 41 [] # "name"); (B "formal_parameters" 184 721 723 41 41 [(A "(" 185 721 722 41 41 []); (A ")" 186 722 723 41 41 [])] # "parameters"); (B "block" 187 724 1320 41 52 [(A "{" 188 724 725 41 41 []); (B "return_statement" 189 730 785 42 42 [(A "return" 190 730 736 42 42 []); (B "query_expression" 191 737 784 42 42 [(A "[" 192 737 738 42 42 []); (B "soql_query_body" 193 738 783 42 42 [(B "select_clause" 194 738 749 42 42 [(A "SELECT" 195 738 744 42 42 []); (B "field_identifier" 196 745 749 42 42 [(B "identifier" 197 745 749 42 42 [])])] # "select_clause"); (B "from_clause" 198 750 762 42 42 [(A "FROM" 199 750 754 42 42 []); (B "storage_identifier" 200 755 762 42 42 [(B "identifier" 201 755 762 42 42 [])])] # "from_clause"); (B "where_clause" 202 763 783 42 42 [(A "WHERE" 203 763 768 42 42 []); (B "comparison_expression" 204 769 783 42 42 [(B "field_identifier" 205 769 773 42 42 [(B "identifier" 206 769 773 42 42 [])]); (B "value_comparison_operator" 207 774 778 42 42 [(A "LIKE" 208 774 778 42 42 [])]); (B "string_literal" 209 779 783 42 42 [])])] # "where_clause")]); (A "]" 210 783 784 42 42 [])]); (A ";" 211 784 785 42 42 [])]); (B "return_statement" 212 790 845 43 43 [(A "return" 213 790 796 43 43 []); (B "query_expression" 214 797 844 43 43 [(A "[" 215 797 798 43 43 []); (B "soql_query_body" 216 798 843 43 43 [(B "select_clause" 217 798 809 43 43 [(A "SELECT" 218 798 804 43 43 []); (B "field_identifier" 219 805 809 43 43 [(B "identifier" 220 805 809 43 43 [])])] # "select_clause"); (B "from_clause" 221 810 822 43 43 [(A "FROM" 222 810 814 43 43 []); (B "storage_identifier" 223 815 822 43 43 [(B "identifier" 224 815 822 43 43 [])])] # "from_clause"); (B "where_clause" 225 823 843 43 43 [(A "WHERE" 226 823 828 43 43 []); (B "comparison_expression" 227 829 843 43 43 [(B "field_identifier" 228 829 833 43 43 [(B "identifier" 229 829 833 43 43 [])]); (B "value_comparison_operator" 230 834 838 43 43 [(A "LIKE" 231 834 838 43 43 [])]); (B "string_literal" 232 839 843 43 43 [])])] # "where_clause")]); (A "]" 233 843 844 43 43 [])]); (A ";" 234 844 845 43 43 [])]); (B "return_statement" 235 850 905 44 44 [(A "return" 236 850 856 44 44 []); (B "query_expression" 237 857 904 44 44 [(A "[" 238 857 858 44 44 []); (B "soql_query_body" 239 858 903 44 44 [(B "select_clause" 240 858 869 44 44 [(A "SELECT" 241 858 864 44 44 []); (B "field_identifier" 242 865 869 44 44 [(B "identifier" 243 865 869 44 44 [])])] # "select_clause"); (B "from_clause" 244 870 882 44 44 [(A "FROM" 245 870 874 44 44 []); (B "storage_identifier" 246 875 882 44 44 [(B "identifier" 247 875 882 44 44 [])])] # "from_clause"); (B "where_clause" 248 883 903 44 44 [(A "WHERE" 249 883 888 44 44 []); (B "comparison_expression" 250 889 903 44 44 [(B "field_identifier" 251 889 893 44 44 [(B "identifier" 252 889 893 44 44 [])]); (B "value_comparison_operator" 253 894 898 44 44 [(A "LIKE" 254 894 898 44 44 [])]); (B "string_literal" 255 899 903 44 44 [])])] # "where_clause")]); (A "]" 256 903 904 44 44 [])]); (A ";" 257 904 905 44 44 [])]); (B "return_statement" 258 910 967 45 45 [(A "return" 259 910 916 45 45 []); (B "query_expression" 260 917 966 45 45 [(A "[" 261 917 918 45 45 []); (B "soql_query_body" 262 918 965 45 45 [(B "select_clause" 263 918 929 45 45 [(A "SELECT" 264 918 924 45 45 []); (B "field_identifier" 265 925 929 45 45 [(B "identifier" 266 925 929 45 45 [])])] # "select_clause"); (B "from_clause" 267 930 942 45 45 [(A "FROM" 268 930 934 45 45 []); (B "storage_identifier" 269 935 942 45 45 [(B "identifier" 270 935 942 45 45 [])])] # "from_clause"); (B "where_clause" 271 943 965 45 45 [(A "WHERE" 272 943 948 45 45 []); (B "comparison_expression" 273 949 965 45 45 [(B "field_identifier" 274 949 953 45 45 [(B "identifier" 275 949 953 45 45 [])]); (B "value_comparison_operator" 276 954 958 45 45 [(A "LIKE" 277 954 958 45 45 [])]); (B "string_literal" 278 959 965 45 45 [])])] # "where_clause")]); (A "]" 279 965 966 45 45 [])]); (A ";" 280 966 967 45 45 [])]); (B "return_statement" 281 972 1029 46 46 [(A "return" 282 972 978 46 46 []); (B "query_expression" 283 979 1028 46 46 [(A "[" 284 979 980 46 46 []); (B "soql_query_body" 285 980 1027 46 46 [(B "select_clause" 286 980 991 46 46 [(A "SELECT" 287 980 986 46 46 []); (B "field_identifier" 288 987 991 46 46 [(B "identifier" 289 987 991 46 46 [])])] # "select_clause"); (B "from_clause" 290 992 1004 46 46 [(A "FROM" 291 992 996 46 46 []); (B "storage_identifier" 292 997 1004 46 46 [(B "identifier" 293 997 1004 46 46 [])])] # "from_clause"); (B "where_clause" 294 1005 1027 46 46 [(A "WHERE" 295 1005 1010 46 46 []); (B "comparison_expression" 296 1011 1027 46 46 [(B "field_identifier" 297 1011 1015 46 46 [(B "identifier" 298 1011 1015 46 46 [])]); (B "value_comparison_operator" 299 1016 1020 46 46 [(A "LIKE" 300 1016 1020 46 46 [])]); (B "string_literal" 301 1021 1027 46 46 [])])] # "where_clause")]); (A "]" 302 1027 1028 46 46 [])]); (A ";" 303 1028 1029 46 46 [])]); (B "return_statement" 304 1034 1085 47 47 [(A "return" 305 1034 1040 47 47 []); (B "query_expression" 306 1041 1084 47 47 [(A "[" 307 1041 1042 47 47 []); (B "soql_query_body" 308 1042 1083 47 47 [(B "select_clause" 309 1042 1053 47 47 [(A "SELECT" 310 1042 1048 47 47 []); (B "field_identifier" 311 1049 1053 47 47 [(B "identifier" 312 1049 1053 47 47 [])])] # "select_clause"); (B "from_clause" 313 1054 1066 47 47 [(A "FROM" 314 1054 1058 47 47 []); (B "storage_identifier" 315 1059 1066 47 47 [(B "identifier" 316 1059 1066 47 47 [])])] # "from_clause"); (B "where_clause" 317 1067 1083 47 47 [(A "WHERE" 318 1067 1072 47 47 []); (B "comparison_expression" 319 1073 1083 47 47 [(B "field_identifier" 320 1073 1077 47 47 [(B "identifier" 321 1073 1077 47 47 [])]); (B "value_comparison_operator" 322 1078 1079 47 47 [(A "=" 323 1078 1079 47 47 [])]); (B "string_literal" 324 1080 1083 47 47 [])])] # "where_clause")]); (A "]" 325 1083 1084 47 47 [])]); (A ";" 326 1084 1085 47 47 [])]); (B "return_statement" 327 1090 1141 48 48 [(A "return" 328 1090 1096 48 48 []); (B "query_expression" 329 1097 1140 48 48 [(A "[" 330 1097 1098 48 48 []); (B "soql_query_body" 331 1098 1139 48 48 [(B "select_clause" 332 1098 1109 48 48 [(A "SELECT" 333 1098 1104 48 48 []); (B "field_identifier" 334 1105 1109 48 48 [(B "identifier" 335 1105 1109 48 48 [])])] # "select_clause"); (B "from_clause" 336 1110 1122 48 48 [(A "FROM" 337 1110 1114 48 48 []); (B "storage_identifier" 338 1115 1122 48 48 [(B "identifier" 339 1115 1122 48 48 [])])] # "from_clause"); (B "where_clause" 340 1123 1139 48 48 [(A "WHERE" 341 1123 1128 48 48 []); (B "comparison_expression" 342 1129 1139 48 48 [(B "field_identifier" 343 1129 1133 48 48 [(B "identifier" 344 1129 1133 48 48 [])]); (B "value_comparison_operator" 345 1134 1135 48 48 [(A "=" 346 1134 1135 48 48 [])]); (B "string_literal" 347 1136 1139 48 48 [])])] # "where_clause")]); (A "]" 348 1139 1140 48 48 [])]); (A ";" 349 1140 1141 48 48 [])]); (B "return_statement" 350 1146 1198 49 49 [(A "return" 351 1146 1152 49 49 []); (B "query_expression" 352 1153 1197 49 49 [(A "[" 353 1153 1154 49 49 []); (B "soql_query_body" 354 1154 1196 49 49 [(B "select_clause" 355 1154 1165 49 49 [(A "SELECT" 356 1154 1160 49 49 []); (B "field_identifier" 357 1161 1165 49 49 [(B "identifier" 358 1161 1165 49 49 [])])] # "select_clause"); (B "from_clause" 359 1166 1178 49 49 [(A "FROM" 360 1166 1170 49 49 []); (B "storage_identifier" 361 1171 1178 49 49 [(B "identifier" 362 1171 1178 49 49 [])])] # "from_clause"); (B "where_clause" 363 1179 1196 49 49 [(A "WHERE" 364 1179 1184 49 49 []); (B "comparison_expression" 365 1185 1196 49 49 [(B "field_identifier" 366 1185 1189 49 49 [(B "identifier" 367 1185 1189 49 49 [])]); (B "value_comparison_operator" 368 1190 1191 49 49 [(A "=" 369 1190 1191 49 49 [])]); (B "string_literal" 370 1192 1196 49 49 [])])] # "where_clause")]); (A "]" 371 1196 1197 49 49 [])]); (A ";" 372 1197 1198 49 49 [])]); (B "return_statement" 373 1203 1257 50 50 [(A "return" 374 1203 1209 50 50 []); (B "query_expression" 375 1210 1256 50 50 [(A "[" 376 1210 1211 50 50 []); (B "soql_query_body" 377 1211 1255 50 50 [(B "select_clause" 378 1211 1222 50 50 [(A "SELECT" 379 1211 1217 50 50 []); (B "field_identifier" 380 1218 1222 50 50 [(B "identifier" 381 1218 1222 50 50 [])])] # "select_clause"); (B "from_clause" 382 1223 1235 50 50 [(A "FROM" 383 1223 1227 50 50 []); (B "storage_identifier" 384 1228 1235 50 50 [(B "identifier" 385 1228 1235 50 50 [])])] # "from_clause"); (B "where_clause" 386 1236 1255 50 50 [(A "WHERE" 387 1236 1241 50 50 []); (B "comparison_expression" 388 1242 1255 50 50 [(B "field_identifier" 389 1242 1246 50 50 [(B "identifier" 390 1242 1246 50 50 [])]); (B "value_comparison_operator" 391 1247 1248 50 50 [(A "=" 392 1247 1248 50 50 [])]); (B "string_literal" 393 1249 1255 50 50 [])])] # "where_clause")]); (A "]" 394 1255 1256 50 50 [])]); (A ";" 395 1256 1257 50 50 [])]); (B "return_statement" 396 1262 1316 51 51 [(A "return" 397 1262 1268 51 51 []); (B "query_expression" 398 1269 1315 51 51 [(A "[" 399 1269 1270 51 51 []); (B "soql_query_body" 400 1270 1314 51 51 [(B "select_clause" 401 1270 1281 51 51 [(A "SELECT" 402 1270 1276 51 51 []); (B "field_identifier" 403 1277 1281 51 51 [(B "identifier" 404 1277 1281 51 51 [])])] # "select_clause"); (B "from_clause" 405 1282 1294 51 51 [(A "FROM" 406 1282 1286 51 51 []); (B "storage_identifier" 407 1287 1294 51 51 [(B "identifier" 408 1287 1294 51 51 [])])] # "from_clause"); (B "where_clause" 409 1295 1314 51 51 [(A "WHERE" 410 1295 1300 51 51 []); (B "comparison_expression" 411 1301 1314 51 51 [(B "field_identifier" 412 1301 1305 51 51 [(B "identifier" 413 1301 1305 51 51 [])]); (B "value_comparison_operator" 414 1306 1307 51 51 [(A "=" 415 1306 1307 51 51 [])]); (B "string_literal" 416 1308 1314 51 51 [])])] # "where_clause")]); (A "]" 417 1314 1315 51 51 [])]); (A ";" 418 1315 1316 51 51 [])]); (A "}" 419 1319 1320 52 52 [])] # "body")]); (A "}" 420 1321 1322 53 53 [])] # "body")])]).
Example prettier80_Literal : as_expected prettier80_Literal_source prettier80_Literal_tree (U "class Literal {
  void nullExpression() {
    return null;
    return null;
    return null;
  }
  void stringLiteral() {
    return 'a';
    return '""non-escaped quotes""';
  }
  void integerLiteral() {
    return 1;
  }
  void longLiteral() {
    return 2147483648L;
    return 2147483640L;
    return 2312321321L;
  }
  void decimalLiteral() {
    return 1.01d;
    return 1.0d;
    return 1.00d;
    return 1.30d;
    return 1.30d;
  }
  void doubleLiteral() {
    return 1.1;
    return 1.0;
    return 1.00;
    return 1.30;
  }
  void trueLiteral() {
    return true;
    return true;
    return true;
  }
  void falseLiteral() {
    return false;
    return false;
    return false;
  }
  void queryEscapedString() {
    return [SELECT Name FROM Account WHERE Name LIKE '\_'];
    return [SELECT Name FROM Account WHERE Name LIKE '\%'];
    return [SELECT Name FROM Account WHERE Name LIKE '\n'];
    return [SELECT Name FROM Account WHERE Name LIKE '\r\n'];
    return [SELECT Name FROM Account WHERE Name LIKE '\\Hi'];
    return [SELECT Name FROM Account WHERE Name = '_'];
    return [SELECT Name FROM Account WHERE Name = '%'];
    return [SELECT Name FROM Account WHERE Name = '\n'];
    return [SELECT Name FROM Account WHERE Name = '\r\n'];
    return [SELECT Name FROM Account WHERE Name = '\\Hi'];
  }
}
").
Proof. apply run_test_ok. vm_compute. reflexivity. Qed.

(* tests/prettier80/LoopClass.in *)
Definition prettier80_LoopClass_source : ustr := U "class LoopClass {
  void forLoop() {
    for (Contact a: contacts) {
      System.debug(a);
    }
    for (Contact a: contacts);
    for (;; voidCall());
    for (String s: stringSet);
  }


  void whileLoop() {
    Integer i = 0;
    while (i < 10) {
      System.debug(i);
      i++;
      if (i == 5) {
        break;
      } else {
        continue;
      }
    }
    while (i < 5) {

    }

    while (true) {
      break;
    }
  }

  void doWhileLoop() {
    Integer i = 0;
    do {
      System.debug(i);
      i ++;
      if (i == 5) {
        break;
      } else {
        continue;
      }
    } while (count < 10);
    do {

    } while (count < 10);
  }
}

".
Definition prettier80_LoopClass_tree : span := (B "parser_output" 1 0 670 0 48 [(B "class_declaration" 2 0 668 0 46 [(A "class" 3 0 5 0 0 []); (B "identifier" 4 6 15 0 0 [] # "name"); (B "class_body" 5 16 668 0 46 [(A "{" 6 16 17 0 0 []); (B "method_declaration" 7 20 188 1 8 [(B "void_type" 8 20 24 1 1 [] # "type"); (B "identifier" 9 25 32 1 1 [] # "name"); (B "formal_parameters" 10 32 34 1 1 [(A "(" 11 32 33 1 1 []); (A ")" 12 33 34 1 1 [])] # "parameters"); (B "block" 13 35 188 1 8 [(A "{" 14 35 36 1 1 []); (B "enhanced_for_statement" 15 41 97 2 4 [(A "for" 16 41 44 2 2 []); (A "(" 17 45 46 2 2 []); (B "type_identifier" 18 46 53 2 2 [] # "type"); (B "identifier" 19 54 55 2 2 [] # "name"); (A ":" 20 55 56 2 2 []); (B "identifier" 21 57 65 2 2 [] # "value"); (A ")" 22 65 66 2 2 []); (B "block" 23 67 97 2 4 [(A "{" 24 67 68 2 2 []); (B "expression_statement" 25 75 91 3 3 [(B "method_invocation" 26 75 90 3 3 [(B "identifier" 27 75 81 3 3 [] # "object"); (A "." 28 81 82 3 3 []); (B "identifier" 29 82 87 3 3 [] # "name"); (B "argument_list" 30 87 90 3 3 [(A "(" 31 87 88 3 3 []); (B "identifier" 32 88 89 3 3 []); (A ")" 33 89 90 3 3 [])] # "arguments")]); (A ";" 34 90 91 3 3 [])]); (A "}" 35 96 97 4 4 [])] # "body")]); (B "enhanced_for_statement" 36 102 128 5 5 [(A "for" 37 102 105 5 5 []); (A "(" 38 106 107 5 5 []); (B "type_identifier" 39 107 114 5 5 [] # "type"); (B "identifier" 40 115 116 5 5 [] # "name"); (A ":" 41 116 117 5 5 []); (B "identifier" 42 118 126 5 5 [] # "value"); (A ")" 43 126 127 5 5 []); (A ";" 44 127 128 5 5 [] # "body")]); (B "for_statement" 45 133 153 6 6 [(A "for" 46 133 136 6 6 []); (A "(" 47 137 138 6 6 []); (A ";" 48 138 139 6 6 []); (A ";" 49 139 140 6 6 []); (B "method_invocation" 50 141 151 6 6 [(B "identifier" 51 141 149 6 6 [] # "name"); (B "argument_list" 52 149 151 6 6 [(A "(" 53 149 150 6 6 []); (A ")" 54 150 151 6 6 [])] # "arguments")] # "update"); (A ")" 55 151 152 6 6 []); (A ";" 56 152 153 6 6 [] # "body")]); (B "enhanced_for_statement" 57 158 184 7 7 [(A "for" 58 158 161 7 7 []); (A "(" 59 162 163 7 7 []); (B "type_identifier" 60 163 169 7 7 [] # "type"); (B "identifier" 61 170 171 7 7 [] # "name"); (A ":" 62 171 172 7 7 []); (B "identifier" 63 173 182 7 7 [] # "value"); (A ")" 64 182 183 7 7 []); (A ";" 65 183 184 7 7 [] # "body")]); (A "}" 66 187 188 8 8 [])] # "body")]); (B "method_declaration" 67 193 437 11 29 [(B "void_type" 68 193 197 11 11 [] # "type"); (B "identifier" 69 198 207 11 11 [] # "name"); (B "formal_parameters" 70 207 209 11 11 [(A "(" 71 207 208 11 11 []); (A ")" 72 208 209 11 11 [])] # "parameters"); (B "block" 73 210 437 11 29 [(A "{" 74 210 211 11 11 []); (B "local_variable_declaration" 75 216 230 12 12 [(B "type_identifier" 76 216 223 12 12 [] # "type"); (B "variable_declarator" 77 224 229 12 12 [(B "identifier" 78 224 225 12 12 [] # "name"); (B "assignment_operator" 79 226 227 12 12 [(A "=" 80 226 227 12 12 [])]); (B "int" 81 228 229 12 12 [] # "value")] # "declarator"); (A ";" 82 229 230 12 12 [])]); (B "while_statement" 83 235 367 13 21 [(A "while" 84 235 240 13 13 []); (B "parenthesized_expression" 85 241 249 13 13 [(A "(" 86 241 242 13 13 []); (B "binary_expression" 87 242 248 13 13 [(B "identifier" 88 242 243 13 13 [] # "left"); (A "<" 89 244 245 13 13 [] # "operator"); (B "int" 90 246 248 13 13 [] # "right")]); (A ")" 91 248 249 13 13 [])] # "condition"); (B "block" 92 250 367 13 21 [(A "{" 93 250 251 13 13 []); (B "expression_statement" 94 258 274 14 14 [(B "method_invocation" 95 258 273 14 14 [(B "identifier" 96 258 264 14 14 [] # "object"); (A "." 97 264 265 14 14 []); (B "identifier" 98 265 270 14 14 [] # "name"); (B "argument_list" 99 270 273 14 14 [(A "(" 100 270 271 14 14 []); (B "identifier" 101 271 272 14 14 []); (A ")" 102 272 273 14 14 [])] # "arguments")]); (A ";" 103 273 274 14 14 [])]); (B "expression_statement" 104 281 285 15 15 [(B "update_expression" 105 281 284 15 15 [(B "identifier" 106 281 282 15 15 [] # "operand"); (A "++" 107 282 284 15 15 [] # "operator")]); (A ";" 108 284 285 15 15 [])]); (B "if_statement" 109 292 361 16 20 [(A "if" 110 292 294 16 16 []); (B "parenthesized_expression" 111 295 303 16 16 [(A "(" 112 295 296 16 16 []); (B "binary_expression" 113 296 302 16 16 [(B "identifier" 114 296 297 16 16 [] # "left"); (A "==" 115 298 300 16 16 [] # "operator"); (B "int" 116 301 302 16 16 [] # "right")]); (A ")" 117 302 303 16 16 [])] # "condition"); (B "block" 118 304 328 16 18 [(A "{" 119 304 305 16 16 []); (B "break_statement" 120 314 320 17 17 [(A "break" 121 314 319 17 17 []); (A ";" 122 319 320 17 17 [])]); (A "}" 123 327 328 18 18 [])] # "consequence"); (A "else" 124 329 333 18 18 []); (B "block" 125 334 361 18 20 [(A "{" 126 334 335 18 18 []); (B "continue_statement" 127 344 353 19 19 [(A "continue" 128 344 352 19 19 []); (A ";" 129 352 353 19 19 [])]); (A "}" 130 360 361 20 20 [])] # "alternative")]); (A "}" 131 366 367 21 21 [])] # "body")]); (B "while_statement" 132 372 394 22 24 [(A "while" 133 372 377 22 22 []); (B "parenthesized_expression" 134 378 385 22 22 [(A "(" 135 378 379 22 22 []); (B "binary_expression" 136 379 384 22 22 [(B "identifier" 137 379 380 22 22 [] # "left"); (A "<" 138 381 382 22 22 [] # "operator"); (B "int" 139 383 384 22 22 [] # "right")]); (A ")" 140 384 385 22 22 [])] # "condition"); (B "block" 141 386 394 22 24 [(A "{" 142 386 387 22 22 []); (A "}" 143 393 394 24 24 [])] # "body")]); (B "while_statement" 144 400 433 26 28 [(A "while" 145 400 405 26 26 []); (B "parenthesized_expression" 146 406 412 26 26 [(A "(" 147 406 407 26 26 []); (B "boolean" 148 407 411 26 26 [(A "true" 149 407 411 26 26 [])]); (A ")" 150 411 412 26 26 [])] # "condition"); (B "block" 151 413 433 26 28 [(A "{" 152 413 414 26 26 []); (B "break_statement" 153 421 427 27 27 [(A "break" 154 421 426 27 27 []); (A ";" 155 426 427 27 27 [])]); (A "}" 156 432 433 28 28 [])] # "body")]); (A "}" 157 436 437 29 29 [])] # "body")]); (B "method_declaration" 158 441 666 31 45 [(B "void_type" 159 441 445 31 31 [] # "type"); (B "identifier" 160 446 457 31 31 [] # "name"); (B "formal_parameters" 161 457 459 31 31 [(A "(" 162 457 458 31 31 []); (A ")" 163 458 459 31 31 [])] # "parameters"); (B "block" 164 460 666 31 45 [(A "{" 165 460 461 31 31 []); (B "local_variable_declaration" 166 466 480 32 32 [(B "type_identifier" 167 466 473 32 32 [] # "type"); (B "variable_declarator" 168 474 479 32 32 [(B "identifier" 169 474 475 32 32 [] # "name"); (B "assignment_operator" 170 476 477 32 32 [(A "=" 171 476 477 32 32 [])]); (B "int" 172 478 479 32 32 [] # "value")] # "declarator"); (A ";" 173 479 480 32 32 [])]); (B "do_statement" 174 485 626 33 41 [(A "do" 175 485 487 33 33 []); (B "block" 176 488 606 33 41 [(A "{" 177 488 489 33 33 []); (B "expression_statement" 178 496 512 34 34 [(B "method_invocation" 179 496 511 34 34 [(B "identifier" 180 496 502 34 34 [] # "object"); (A "." 181 502 503 34 34 []); (B "identifier" 182 503 508 34 34 [] # "name"); (B "argument_list" 183 508 511 34 34 [(A "(" 184 508 509 34 34 []); (B "identifier" 185 509 510 34 34 []); (A ")" 186 510 511 34 34 [])] # "arguments")]); (A ";" 187 511 512 34 34 [])]); (B "expression_statement" 188 519 524 35 35 [(B "update_expression" 189 519 523 35 35 [(B "identifier" 190 519 520 35 35 [] # "operand"); (A "++" 191 521 523 35 35 [] # "operator")]); (A ";" 192 523 524 35 35 [])]); (B "if_statement" 193 531 600 36 40 [(A "if" 194 531 533 36 36 []); (B "parenthesized_expression" 195 534 542 36 36 [(A "(" 196 534 535 36 36 []); (B "binary_expression" 197 535 541 36 36 [(B "identifier" 198 535 536 36 36 [] # "left"); (A "==" 199 537 539 36 36 [] # "operator"); (B "int" 200 540 541 36 36 [] # "right")]); (A ")" 201 541 542 36 36 [])] # "condition"); (B "block" 202 543 567 36 38 [(A "{" 203 543 544 36 36 []); (B "break_statement" 204 553 559 37 37 [(A "break" 205 553 558 37 37 []); (A ";" 206 558 559 37 37 [])]); (A "}" 207 566 567 38 38 [])] # "consequence"); (A "else" 208 568 572 38 38 []); (B "block" 209 573 600 38 40 [(A "{" 210 573 574 38 38 []); (B "continue_statement" 211 583 592 39 39 [(A "continue" 212 583 591 39 39 []); (A ";" 213 591 592 39 39 [])]); (A "}" 214 599 600 40 40 [])] # "alternative")]); (A "}" 215 605 606 41 41 [])] # "body"); (A "while" 216 607 612 41 41 []); (B "parenthesized_expression" 217 613 625 41 41 [(A "(" 218 613 614 41 41 []); (B "binary_expression" 219 614 624 41 41 [(B "identifier" 220 614 619 41 41 [] # "left"); (A "<" 221 620 621 41 41 [] # "operator"); (B "int" 222 622 624 41 41 [] # "right")]); (A ")" 223 624 625 41 41 [])] # "condition"); (A ";" 224 625 626 41 41 [])]); (B "do_statement" 225 631 662 42 44 [(A "do" 226 631 633 42 42 []); (B "block" 227 634 642 42 44 [(A "{" 228 634 635 42 42 []); (A "}" 229 641 642 44 44 [])] # "body"); (A "while" 230 643 648 44 44 []); (B "parenthesized_expression" 231 649 661 44 44 [(A "(" 232 649 650 44 44 []); (B "binary_expression" 233 650 660 44 44 [(B "identifier" 234 650 655 44 44 [] # "left"); (A "<" 235 656 657 44 44 [] # "operator"); (B "int" 236 658 660 44 44 [] # "right")]); (A ")" 237 660 661 44 44 [])] # "condition"); (A ";" 238 661 662 44 44 [])]); (A "}" 239 665 666 45 45 [])] # "body")]); (A "}" 240 667 668 46 46 [])] # "body")])]).
Example prettier80_LoopClass : as_expected prettier80_LoopClass_source prettier80_LoopClass_tree (U "class LoopClass {
  void forLoop() {
    for (Contact a : contacts) {
      System.debug(a);
    }
    for (Contact a : contacts);
    for (;; voidCall());
    for (String s : stringSet);
  }

  void whileLoop() {
    Integer i = 0;
    while (i < 10) {
      System.debug(i);
      i++;
      if (i == 5) {
        break;
      } else {
        continue;
      }
    }
    while (i < 5) {
    }

    while (true) {
      break;
    }
  }

  void doWhileLoop() {
    Integer i = 0;
    do {
      System.debug(i);
      i++;
      if (i == 5) {
        break;
      } else {
        continue;
      }
    } while (count < 10);
    do {
    } while (count < 10);
  }
}
").
Proof. apply run_test_ok. vm_compute. reflexivity. Qed.

(* tests/prettier80/Namespace.in *)
Definition prettier80_Namespace_source : ustr := U "class Namespace {
  void simpleNamespaceTests() {
    System.System.debug('Hello');

    SampleNamespace__TestObject__c a = new SampleNamespace__TestObject__c();
  }
}
".
Definition prettier80_Namespace_tree : span := (B "parser_output" 1 0 168 0 7 [(B "class_declaration" 2 0 167 0 6 [(A "class" 3 0 5 0 0 []); (B "identifier" 4 6 15 0 0 [] # "name"); (B "class_body" 5 16 167 0 6 [(A "{" 6 16 17 0 0 []); (B "method_declaration" 7 20 165 1 5 [(B "void_type" 8 20 24 1 1 [] # "type"); (B "identifier" 9 25 45 1 1 [] # "name"); (B "formal_parameters" 10 45 47 1 1 [(A "(" 11 45 46 1 1 []); (A ")" 12 46 47 1 1 [])] # "parameters"); (B "block" 13 48 165 1 5 [(A "{" 14 48 49 1 1 []); (B "expression_statement" 15 54 83 2 2 [(B "method_invocation" 16 54 82 2 2 [(B "field_access" 17 54 67 2 2 [(B "identifier" 18 54 60 2 2 [] # "object"); (A "." 19 60 61 2 2 []); (B "identifier" 20 61 67 2 2 [] # "field")] # "object"); (A "." 21 67 68 2 2 []); (B "identifier" 22 68 73 2 2 [] # "name"); (B "argument_list" 23 73 82 2 2 [(A "(" 24 73 74 2 2 []); (B "string_literal" 25 74 81 2 2 []); (A ")" 26 81 82 2 2 [])] # "arguments")]); (A ";" 27 82 83 2 2 [])]); (B "local_variable_declaration" 28 89 161 4 4 [(B "type_identifier" 29 89 119 4 4 [] # "type"); (B "variable_declarator" 30 120 160 4 4 [(B "identifier" 31 120 121 4 4 [] # "name"); (B "assignment_operator" 32 122 123 4 4 [(A "=" 33 122 123 4 4 [])]); (B "object_creation_expression" 34 124 160 4 4 [(A "new" 35 124 127 4 4 []); (B "type_identifier" 36 128 158 4 4 [] # "type"); (B "argument_list" 37 158 160 4 4 [(A "(" 38 158 159 4 4 []); (A ")" 39 159 160 4 4 [])] # "arguments")] # "value")] # "declarator"); (A ";" 40 160 161 4 4 [])]); (A "}" 41 164 165 5 5 [])] # "body")]); (A "}" 42 166 167 6 6 [])] # "body")])]).
Example prettier80_Namespace : as_expected prettier80_Namespace_source prettier80_Namespace_tree (U "class Namespace {
  void simpleNamespaceTests() {
    System.System.debug('Hello');

    SampleNamespace__TestObject__c a = new SampleNamespace__TestObject__c();
  }
}
").
Proof. apply run_test_ok. vm_compute. reflexivity. Qed.

(* tests/prettier80/PackageVersion.in *)
Definition prettier80_PackageVersion_source : ustr := U "class PackageVersion {
  void packageVersionTest() {
    Object v = Package.Version.1.0;
    v = Package.Version.Request;
  }
}
".
Definition prettier80_PackageVersion_tree : span := (B "parser_output" 1 0 128 0 6 [(B "class_declaration" 2 0 127 0 5 [(A "class" 3 0 5 0 0 []); (B "identifier" 4 6 20 0 0 [] # "name"); (B "class_body" 5 21 127 0 5 [(A "{" 6 21 22 0 0 []); (B "method_declaration" 7 25 125 1 4 [(B "void_type" 8 25 29 1 1 [] # "type"); (B "identifier" 9 30 48 1 1 [] # "name"); (B "formal_parameters" 10 48 50 1 1 [(A "(" 11 48 49 1 1 []); (A ")" 12 49 50 1 1 [])] # "parameters"); (B "block" 13 51 125 1 4 [(A "{" 14 51 52 1 1 []); (B "local_variable_declaration" 15 57 88 2 2 [(B "type_identifier" 16 57 63 2 2 [] # "type"); (B "variable_declarator" 17 64 87 2 2 [(B "identifier" 18 64 65 2 2 [] # "name"); (B "assignment_operator" 19 66 67 2 2 [(A "=" 20 66 67 2 2 [])]); (B "version_expression" 21 68 87 2 2 [(A "Package.Version." 22 68 84 2 2 []); (B "version_number" 23 84 87 2 2 [] # "version_num")] # "value")] # "declarator"); (A ";" 24 87 88 2 2 [])]); (B "expression_statement" 25 93 121 3 3 [(B "assignment_expression" 26 93 120 3 3 [(B "identifier" 27 93 94 3 3 [] # "left"); (B "assignment_operator" 28 95 96 3 3 [(A "=" 29 95 96 3 3 [])] # "operator"); (B "version_expression" 30 97 120 3 3 [(A "Package.Version." 31 97 113 3 3 []); (A "Request" 32 113 120 3 3 [])] # "right")]); (A ";" 33 120 121 3 3 [])]); (A "}" 34 124 125 4 4 [])] # "body")]); (A "}" 35 126 127 5 5 [])] # "body")])]).
Example prettier80_PackageVersion : as_expected prettier80_PackageVersion_source prettier80_PackageVersion_tree (U "class PackageVersion {
  void packageVersionTest() {
    Object v = Package.Version.1.0;
    v = Package.Version.Request;
  }
}
").
Proof. apply run_test_ok. vm_compute. reflexivity. Qed.

(* tests/prettier80/PrivateEmptyClass.in *)
Definition prettier80_PrivateEmptyClass_source : ustr := U "private class PrivateEmptyClass
{}

".
Definition prettier80_PrivateEmptyClass_tree : span := (B "parser_output" 1 0 36 0 3 [(B "class_declaration" 2 0 34 0 1 [(B "modifiers" 3 0 7 0 0 [(B "modifier" 4 0 7 0 0 [(B "private" 5 0 7 0 0 [(A "private" 6 0 7 0 0 [])])])]); (A "class" 7 8 13 0 0 []); (B "identifier" 8 14 31 0 0 [] # "name"); (B "class_body" 9 32 34 1 1 [(A "{" 10 32 33 1 1 []); (A "}" 11 33 34 1 1 [])] # "body")])]).
Example prettier80_PrivateEmptyClass : as_expected prettier80_PrivateEmptyClass_source prettier80_PrivateEmptyClass_tree (U "private class PrivateEmptyClass {
}
").
Proof. apply run_test_ok. vm_compute. reflexivity. Qed.

(* tests/prettier80/PublicEmptyClass.in *)
Definition prettier80_PublicEmptyClass_source : ustr := U "public class PublicEmptyClass
{}

".
Definition prettier80_PublicEmptyClass_tree : span := (B "parser_output" 1 0 34 0 3 [(B "class_declaration" 2 0 32 0 1 [(B "modifiers" 3 0 6 0 0 [(B "modifier" 4 0 6 0 0 [(B "public" 5 0 6 0 0 [(A "public" 6 0 6 0 0 [])])])]); (A "class" 7 7 12 0 0 []); (B "identifier" 8 13 29 0 0 [] # "name"); (B "class_body" 9 30 32 1 1 [(A "{" 10 30 31 1 1 []); (A "}" 11 31 32 1 1 [])] # "body")])]).
Example prettier80_PublicEmptyClass : as_expected prettier80_PublicEmptyClass_source prettier80_PublicEmptyClass_tree (U "public class PublicEmptyClass {
}
").
Proof. apply run_test_ok. vm_compute. reflexivity. Qed.

(* tests/prettier80/RunAsClass.in *)
Definition prettier80_RunAsClass_source : ustr := U "@isTest
class RunAsClass {
  static testmethod void runAsTest() {
    User userOne = [SELECT Id FROM User LIMIT 1];
    User userTwo = [SELECT Id FROM User LIMIT 1 OFFSET 1];

    System.runAs(userOne) {
      System.debug('I am running as another user!');
    }

    System.runAs(userOne) {
      System.debug('First level');
      System.runAs(userTwo) {
        System.debug('Second level');
      }
    }

    System.runAs([SELECT Id FROM User LIMIT 1]) {

    }

    System.runAs(new Version(1, 0)) {
      System.debug('I am running as a different version');
    }

    Version newVersion = new Version(2, 0);
    System.runAs(newVersion) {
      System.debug('Running version 2');
    }
  }
}

".
Definition prettier80_RunAsClass_tree : span := (B "parser_output" 1 0 701 0 32 [(B "class_declaration" 2 0 699 0 30 [(B "modifiers" 3 0 7 0 0 [(B "annotation" 4 0 7 0 0 [(A "@" 5 0 1 0 0 []); (B "identifier" 6 1 7 0 0 [] # "name")])]); (A "class" 7 8 13 1 1 []); (B "identifier" 8 14 24 1 1 [] # "name"); (B "class_body" 9 25 699 1 30 [(A "{" 10 25 26 1 1 []); (B "method_declaration" 11 29 697 2 29 [(B "modifiers" 12 29 46 2 2 [(B "modifier" 13 29 35 2 2 [(B "static" 14 29 35 2 2 [(A "static" 15 29 35 2 2 [])])]); (B "modifier" 16 36 46 2 2 [(B "testMethod" 17 36 46 2 2 [(A "testmethod" 18 36 46 2 2 [])])])]); (B "void_type" 19 47 51 2 2 [] # "type"); (B "identifier" 20 52 61 2 2 [] # "name"); (B "formal_parameters" 21 61 63 2 2 [(A "(" 22 61 62 2 2 []); (A ")" 23 62 63 2 2 [])] # "parameters"); (B "block" 24 64 697 2 29 [(A "{" 25 64 65 2 2 []); (B "local_variable_declaration" 26 70 115 3 3 [(B "type_identifier" 27 70 74 3 3 [] # "type"); (B "variable_declarator" 28 75 114 3 3 [(B "identifier" 29 75 82 3 3 [] # "name"); (B "assignment_operator" 30 83 84 3 3 [(A "=" 31 83 84 3 3 [])]); (B "query_expression" 32 85 114 3 3 [(A "[" 33 85 86 3 3 []); (B "soql_query_body" 34 86 113 3 3 [(B "select_clause" 35 86 95 3 3 [(A "SELECT" 36 86 92 3 3 []); (B "field_identifier" 37 93 95 3 3 [(B "identifier" 38 93 95 3 3 [])])] # "select_clause"); (B "from_clause" 39 96 105 3 3 [(A "FROM" 40 96 100 3 3 []); (B "storage_identifier" 41 101 105 3 3 [(B "identifier" 42 101 105 3 3 [])])] # "from_clause"); (B "limit_clause" 43 106 113 3 3 [(A "LIMIT" 44 106 111 3 3 []); (B "int" 45 112 113 3 3 [])] # "limit_clause")]); (A "]" 46 113 114 3 3 [])] # "value")] # "declarator"); (A ";" 47 114 115 3 3 [])]); (B "local_variable_declaration" 48 120 174 4 4 [(B "type_identifier" 49 120 124 4 4 [] # "type"); (B "variable_declarator" 50 125 173 4 4 [(B "identifier" 51 125 132 4 4 [] # "name"); (B "assignment_operator" 52 133 134 4 4 [(A "=" 53 133 134 4 4 [])]); (B "query_expression" 54 135 173 4 4 [(A "[" 55 135 136 4 4 []); (B "soql_query_body" 56 136 172 4 4 [(B "select_clause" 57 136 145 4 4 [(A "SELECT" 58 136 142 4 4 []); (B "field_identifier" 59 143 145 4 4 [(B "identifier" 60 143 145 4 4 [])])] # "select_clause"); (B "from_clause" 61 146 155 4 4 [(A "FROM" 62 146 150 4 4 []); (B "storage_identifier" 63 151 155 4 4 [(B "identifier" 64 151 155 4 4 [])])] # "from_clause"); (B "limit_clause" 65 156 163 4 4 [(A "LIMIT" 66 156 161 4 4 []); (B "int" 67 162 163 4 4 [])] # "limit_clause"); (B "offset_clause" 68 164 172 4 4 [(A "OFFSET" 69 164 170 4 4 []); (B "int" 70 171 172 4 4 [])] # "offset_clause")]); (A "]" 71 172 173 4 4 [])] # "value")] # "declarator"); (A ";" 72 173 174 4 4 [])]); (B "run_as_statement" 73 180 262 6 8 [(A "System.runAs" 74 180 192 6 6 []); (B "parenthesized_expression" 75 192 201 6 6 [(A "(" 76 192 193 6 6 []); (B "identifier" 77 193 200 6 6 []); (A ")" 78 200 201 6 6 [])] # "user"); (B "block" 79 202 262 6 8 [(A "{" 80 202 203 6 6 []); (B "expression_statement" 81 210 256 7 7 [(B "method_invocation" 82 210 255 7 7 [(B "identifier" 83 210 216 7 7 [] # "object"); (A "." 84 216 217 7 7 []); (B "identifier" 85 217 222 7 7 [] # "name"); (B "argument_list" 86 222 255 7 7 [(A "(" 87 222 223 7 7 []); (B "string_literal" 88 223 254 7 7 []); (A ")" 89 254 255 7 7 [])] # "arguments")]); (A ";" 90 255 256 7 7 [])]); (A "}" 91 261 262 8 8 [])])]); (B "run_as_statement" 92 268 408 10 15 [(A "System.runAs" 93 268 280 10 10 []); (B "parenthesized_expression" 94 280 289 10 10 [(A "(" 95 280 281 10 10 []); (B "identifier" 96 281 288 10 10 []); (A ")" 97 288 289 10 10 [])] # "user"); (B "block" 98 290 408 10 15 [(A "{" 99 290 291 10 10 []); (B "expression_statement" 100 298 326 11 11 [(B "method_invocation" 101 298 325 11 11 [(B "identifier" 102 298 304 11 11 [] # "object"); (A "." 103 304 305 11 11 []); (B "identifier" 104 305 310 11 11 [] # "name"); (B "argument_list" 105 310 325 11 11 [(A "(" 106 310 311 11 11 []); (B "string_literal" 107 311 324 11 11 []); (A ")" 108 324 325 11 11 [])] # "arguments")]); (A ";" 109 325 326 11 11 [])]); (B "run_as_statement" 110 333 402 12 14 [(A "System.runAs" 111 333 345 12 12 []); (B "parenthesized_expression" 112 345 354 12 12 [(A "(" 113 345 346 12 12 []); (B "identifier" 114 346 353 12 12 []); (A ")" 115 353 354 12 12 [])] # "user"); (B "block" 116 355 402 12 14 [(A "{" 117 355 356 12 12 []); (B "expression_statement" 118 365 394 13 13 [(B "method_invocation" 119 365 393 13 13 [(B "identifier" 120 365 371 13 13 [] # "object"); (A "." 121 371 372 13 13 []); (B "identifier" 122 372 377 13 13 [] # "name"); (B "argument_list" 123 377 393 13 13 [(A "(" 124 377 378 13 13 []); (B "string_literal" 125 378 392 13 13 []); (A ")" 126 392 393 13 13 [])] # "arguments")]); (A ";" 127 393 394 13 13 [])]); (A "}" 128 401 402 14 14 [])])]); (A "}" 129 407 408 15 15 [])])]); (B "run_as_statement" 130 414 466 17 19 [(A "System.runAs" 131 414 426 17 17 []); (B "parenthesized_expression" 132 426 457 17 17 [(A "(" 133 426 427 17 17 []); (B "query_expression" 134 427 456 17 17 [(A "[" 135 427 428 17 17 []); (B "soql_query_body" 136 428 455 17 17 [(B "select_clause" 137 428 437 17 17 [(A "SELECT" 138 428 434 17 17 []); (B "field_identifier" 139 435 437 17 17 [(B "identifier" 140 435 437 17 17 [])])] # "select_clause"); (B "from_clause" 141 438 447 17 17 [(A "FROM" 142 438 442 17 17 []); (B "storage_identifier" 143 443 447 17 17 [(B "identifier" 144 443 447 17 17 [])])] # "from_clause"); (B "limit_clause" 145 448 455 17 17 [(A "LIMIT" 146 448 453 17 17 []); (B "int" 147 454 455 17 17 [])] # "limit_clause")]); (A "]" 148 455 456 17 17 [])]); (A ")" 149 456 457 17 17 [])] # "user"); (B "block" 150 458 466 17 19 [(A "{" 151 458 459 17 17 []); (A "}" 152 465 466 19 19 [])])]); (B "run_as_statement" 153 472 570 21 23 [(A "System.runAs" 154 472 484 21 21 []); (B "parenthesized_expression" 155 484 503 21 21 [(A "(" 156 484 485 21 21 []); (B "object_creation_expression" 157 485 502 21 21 [(A "new" 158 485 488 21 21 []); (B "type_identifier" 159 489 496 21 21 [] # "type"); (B "argument_list" 160 496 502 21 21 [(A "(" 161 496 497 21 21 []); (B "int" 162 497 498 21 21 []); (A "," 163 498 499 21 21 []); (B "int" 164 500 501 21 21 []); (A ")" 165 501 502 21 21 [])] # "arguments")]); (A ")" 166 502 503 21 21 [])] # "user"); (B "block" 167 504 570 21 23 [(A "{" 168 504 505 21 21 []); (B "expression_statement" 169 512 564 22 22 [(B "method_invocation" 170 512 563 22 22 [(B "identifier" 171 512 518 22 22 [] # "object"); (A "." 172 518 519 22 22 []); (B "identifier" 173 519 524 22 22 [] # "name"); (B "argument_list" 174 524 563 22 22 [(A "(" 175 524 525 22 22 []); (B "string_literal" 176 525 562 22 22 []); (A ")" 177 562 563 22 22 [])] # "arguments")]); (A ";" 178 563 564 22 22 [])]); (A "}" 179 569 570 23 23 [])])]); (B "local_variable_declaration" 180 576 615 25 25 [(B "type_identifier" 181 576 583 25 25 [] # "type"); (B "variable_declarator" 182 584 614 25 25 [(B "identifier" 183 584 594 25 25 [] # "name"); (B "assignment_operator" 184 595 596 25 25 [(A "=" 185 595 596 25 25 [])]); (B "object_creation_expression" 186 597 614 25 25 [(A "new" 187 597 600 25 25 []); (B "type_identifier" 188 601 608 25 25 [] # "type"); (B "argument_list" 189 608 614 25 25 [(A "(" 190 608 609 25 25 []); (B "int" 191 609 610 25 25 []); (A "," 192 610 611 25 25 []); (B "int" 193 612 613 25 25 []); (A ")" 194 613 614 25 25 [])] # "arguments")] # "value")] # "declarator"); (A ";" 195 614 615 25 25 [])]); (B "run_as_statement" 196 620 693 26 28 [(A "System.runAs" 197 620 632 26 26 []); (B "parenthesized_expression" 198 632 644 26 26 [(A "(" 199 632 633 26 26 []); (B "identifier" 200 633 643 26 26 []); (A ")" 201 643 644 26 26 [])] # "user"); (B "block" 202 645 693 26 28 [(A "{" 203 645 646 26 26 []); (B "expression_statement" 204 653 687 27 27 [(B "method_invocation" 205 653 686 27 27 [(B "identifier" 206 653 659 27 27 [] # "object"); (A "." 207 659 660 27 27 []); (B "identifier" 208 660 665 27 27 [] # "name"); (B "argument_list" 209 665 686 27 27 [(A "(" 210 665 666 27 27 []); (B "string_literal" 211 666 685 27 27 []); (A ")" 212 685 686 27 27 [])] # "arguments")]); (A ";" 213 686 687 27 27 [])]); (A "}" 214 692 693 28 28 [])])]); (A "}" 215 696 697 29 29 [])] # "body")]); (A "}" 216 698 699 30 30 [])] # "body")])]).
Example prettier80_RunAsClass : as_expected prettier80_RunAsClass_source prettier80_RunAsClass_tree (U "@isTest
class RunAsClass {
  static testMethod void runAsTest() {
    User userOne = [SELECT Id FROM User LIMIT 1];
    User userTwo = [SELECT Id FROM User LIMIT 1 OFFSET 1];

    System.runAs(userOne) {
      System.debug('I am running as another user!');
    }

    System.runAs(userOne) {
      System.debug('First level');
      System.runAs(userTwo) {
        System.debug('Second level');
      }
    }

    System.runAs([SELECT Id FROM User LIMIT 1]) {
    }

    System.runAs(new Version(1, 0)) {
      System.debug('I am running as a different version');
    }

    Version newVersion = new Version(2, 0);
    System.runAs(newVersion) {
      System.debug('Running version 2');
    }
  }
}
").
Proof. apply run_test_ok. vm_compute. reflexivity. Qed.

(* tests/prettier80/SOSL1.in *)
Definition prettier80_SOSL1_source : ustr := U "public class Me {
     {
          List<List<SObject>> res =

               [  FIND 'hello'    RETURNING   Account  ] ;
     }
}
".
Definition prettier80_SOSL1_tree : span := (B "parser_output" 1 0 130 0 7 [(B "class_declaration" 2 0 129 0 6 [(B "modifiers" 3 0 6 0 0 [(B "modifier" 4 0 6 0 0 [(B "public" 5 0 6 0 0 [(A "public" 6 0 6 0 0 [])])])]); (A "class" 7 7 12 0 0 []); (B "identifier" 8 13 15 0 0 [] # "name"); (B "class_body" 9 16 129 0 6 [(A "{" 10 16 17 0 0 []); (B "block" 11 23 127 1 5 [(A "{" 12 23 24 1 1 []); (B "local_variable_declaration" 13 35 120 2 4 [(B "generic_type" 14 35 54 2 2 [(B "type_identifier" 15 35 39 2 2 []); (B "type_arguments" 16 39 54 2 2 [(A "<" 17 39 40 2 2 []); (B "generic_type" 18 40 53 2 2 [(B "type_identifier" 19 40 44 2 2 []); (B "type_arguments" 20 44 53 2 2 [(A "<" 21 44 45 2 2 []); (B "type_identifier" 22 45 52 2 2 []); (A ">" 23 52 53 2 2 [])])]); (A ">" 24 53 54 2 2 [])])] # "type"); (B "variable_declarator" 25 55 118 2 4 [(B "identifier" 26 55 58 2 2 [] # "name"); (B "assignment_operator" 27 59 60 2 2 [(A "=" 28 59 60 2 2 [])]); (B "query_expression" 29 77 118 4 4 [(A "[" 30 77 78 4 4 []); (B "sosl_query_body" 31 80 115 4 4 [(B "find_clause" 32 80 92 4 4 [(A "FIND" 33 80 84 4 4 []); (A "'" 34 85 86 4 4 []); (B "term" 35 86 91 4 4 []); (A "'" 36 91 92 4 4 [])]); (B "returning_clause" 37 96 115 4 4 [(A "RETURNING" 38 96 105 4 4 []); (B "sobject_return" 39 108 115 4 4 [(B "identifier" 40 108 115 4 4 [])])])]); (A "]" 41 117 118 4 4 [])] # "value")] # "declarator"); (A ";" 42 119 120 4 4 [])]); (A "}" 43 126 127 5 5 [])]); (A "}" 44 128 129 6 6 [])] # "body")])]).
Example prettier80_SOSL1 : as_expected prettier80_SOSL1_source prettier80_SOSL1_tree (U "public class Me {
  {
    List<List<SObject>> res = [FIND 'hello' RETURNING Account];
  }
}
").
Proof. apply run_test_ok. vm_compute. reflexivity. Qed.

(* tests/prettier80/SOSL2.in *)
Definition prettier80_SOSL2_source : ustr := U "public class Me {
     {
          List<List<SObject>> res =
               [FIND :myString1 IN ALL FIELDS
                                  RETURNING
                                     Account (Id, Name WHERE Name LIKE :myString2
                                              LIMIT :myInt3),
                                     Contact,
                                     Opportunity,
                                     Lead
                                  WITH DIVISION =:myString4
                                  LIMIT :myInt5];
     }
}
".
Definition prettier80_SOSL2_tree : span := (B "parser_output" 1 0 552 0 14 [(B "class_declaration" 2 0 551 0 13 [(B "modifiers" 3 0 6 0 0 [(B "modifier" 4 0 6 0 0 [(B "public" 5 0 6 0 0 [(A "public" 6 0 6 0 0 [])])])]); (A "class" 7 7 12 0 0 []); (B "identifier" 8 13 15 0 0 [] # "name"); (B "class_body" 9 16 551 0 13 [(A "{" 10 16 17 0 0 []); (B "block" 11 23 549 1 12 [(A "{" 12 23 24 1 1 []); (B "local_variable_declaration" 13 35 542 2 11 [(B "generic_type" 14 35 54 2 2 [(B "type_identifier" 15 35 39 2 2 []); (B "type_arguments" 16 39 54 2 2 [(A "<" 17 39 40 2 2 []); (B "generic_type" 18 40 53 2 2 [(B "type_identifier" 19 40 44 2 2 []); (B "type_arguments" 20 44 53 2 2 [(A "<" 21 44 45 2 2 []); (B "type_identifier" 22 45 52 2 2 []); (A ">" 23 52 53 2 2 [])])]); (A ">" 24 53 54 2 2 [])])] # "type"); (B "variable_declarator" 25 55 541 2 11 [(B "identifier" 26 55 58 2 2 [] # "name"); (B "assignment_operator" 27 59 60 2 2 [(A "=" 28 59 60 2 2 [])]); (B "query_expression" 29 76 541 3 11 [(A "[" 30 76 77 3 3 []); (B "sosl_query_body" 31 77 540 3 11 [(B "find_clause" 32 77 92 3 3 [(A "FIND" 33 77 81 3 3 []); (B "bound_apex_expression" 34 82 92 3 3 [(A ":" 35 82 83 3 3 []); (B "identifier" 36 83 92 3 3 [])])]); (B "in_clause" 37 93 106 3 3 [(A "IN" 38 93 95 3 3 []); (B "in_type" 39 96 99 3 3 [(A "ALL" 40 96 99 3 3 [])]); (A "FIELDS" 41 100 106 3 3 [])]); (B "returning_clause" 42 141 432 4 9 [(A "RETURNING" 43 141 150 4 4 []); (B "sobject_return" 44 188 293 5 6 [(B "identifier" 45 188 195 5 5 []); (A "(" 46 196 197 5 5 []); (B "selected_fields" 47 197 205 5 5 [(B "field_identifier" 48 197 199 5 5 [(B "identifier" 49 197 199 5 5 [])]); (A "," 50 199 200 5 5 []); (B "field_identifier" 51 201 205 5 5 [(B "identifier" 52 201 205 5 5 [])])]); (B "where_clause" 53 206 232 5 5 [(A "WHERE" 54 206 211 5 5 []); (B "comparison_expression" 55 212 232 5 5 [(B "field_identifier" 56 212 216 5 5 [(B "identifier" 57 212 216 5 5 [])]); (B "value_comparison_operator" 58 217 221 5 5 [(A "LIKE" 59 217 221 5 5 [])]); (B "bound_apex_expression" 60 222 232 5 5 [(A ":" 61 222 223 5 5 []); (B "identifier" 62 223 232 5 5 [])])])]); (B "limit_clause" 63 279 292 6 6 [(A "LIMIT" 64 279 284 6 6 []); (B "bound_apex_expression" 65 285 292 6 6 [(A ":" 66 285 286 6 6 []); (B "identifier" 67 286 292 6 6 [])])]); (A ")" 68 292 293 6 6 [])]); (A "," 69 293 294 6 6 []); (B "sobject_return" 70 332 339 7 7 [(B "identifier" 71 332 339 7 7 [])]); (A "," 72 339 340 7 7 []); (B "sobject_return" 73 378 389 8 8 [(B "identifier" 74 378 389 8 8 [])]); (A "," 75 389 390 8 8 []); (B "sobject_return" 76 428 432 9 9 [(B "identifier" 77 428 432 9 9 [])])]); (B "with_clause" 78 467 492 10 10 [(A "WITH" 79 467 471 10 10 []); (B "with_type" 80 472 492 10 10 [(B "with_division_expression" 81 472 492 10 10 [(A "DIVISION" 82 472 480 10 10 []); (A "=" 83 481 482 10 10 []); (B "bound_apex_expression" 84 482 492 10 10 [(A ":" 85 482 483 10 10 []); (B "identifier" 86 483 492 10 10 [])])])])]); (B "limit_clause" 87 527 540 11 11 [(A "LIMIT" 88 527 532 11 11 []); (B "bound_apex_expression" 89 533 540 11 11 [(A ":" 90 533 534 11 11 []); (B "identifier" 91 534 540 11 11 [])])])]); (A "]" 92 540 541 11 11 [])] # "value")] # "declarator"); (A ";" 93 541 542 11 11 [])]); (A "}" 94 548 549 12 12 [])]); (A "}" 95 550 551 13 13 [])] # "body")])]).
Example prettier80_SOSL2 : as_expected prettier80_SOSL2_source prettier80_SOSL2_tree (U "public class Me {
  {
    List<List<SObject>> res = [
      FIND :myString1
      IN ALL FIELDS
      RETURNING
        Account(Id, Name WHERE Name LIKE :myString2 LIMIT :myInt3),
        Contact,
        Opportunity,
        Lead
      WITH DIVISION = :myString4
      LIMIT :myInt5
    ];
  }
}
").
Proof. apply run_test_ok. vm_compute. reflexivity. Qed.

(* tests/prettier80/SOSL3.in *)
Definition prettier80_SOSL3_source : ustr := U "class SOSLClass {
  void simpleSOSL() {
    String a = 'Hello';
    List<List<SObject>> searchResult = [FIND 'FirstLastName'];
    searchResult = [FIND :a];
    searchResult = [FIND :a USING PHRASE SEARCH];
    searchResult = [FIND :a USING ADVANCED SEARCH];
  }

  void hardlineHeuristics() {
    List<List<SObject>> searchResult = [FIND 'FirstLastName'];
    searchResult = [FIND :a USING PHRASE SEARCH];
  }

  void inClause() {
    List<List<SObject>> searchResult;
    searchResult = [FIND 'Hello' IN ALL FIELDS];
    searchResult = [FIND 'Hello' IN EMAIL FIELDS];
    searchResult = [FIND 'Hello' IN NAME FIELDS];
    searchResult = [FIND 'Hello' IN PHONE FIELDS];
    searchResult = [FIND 'Hello' IN SIDEBAR FIELDS];
  }
  void withDivisionClause() {
    List<List<SObject>> searchResult;
    String a = 'Local';
    searchResult = [FIND 'Hello' WITH Division = 'Global'];
    searchResult = [FIND 'Hello' WITH Division = :a];
    searchResult = [ FIND 'foobar' RETURNING Account WITH DIVISION ='global' ];
  }
  void withDataCategory() {
    List<List<SObject>> searchResult;
    String a = 'Local';
    searchResult = [FIND 'Hello' WITH DATA CATEGORY Location__c AT America__c];
    searchResult = [FIND 'Hello' WITH DATA CATEGORY Geography__c ABOVE France__c AND Product__c AT mobile_phones__c];
    searchResult = [FIND 'Hello' WITH DATA CATEGORY Geography__c below Europe__c];
  }
  void withSnippet() {
    List<List<SObject>> searchResult;
    String a = 'Local';
    searchResult = [FIND 'Hello' WITH SNIPPET];
    searchResult = [FIND 'Hello' WITH SNIPPET (TARGET_LENGTH=120)];
  }
  void withNetwork() {
    List<List<SObject>> searchResult;
    searchResult = [FIND 'Hello' WITH NETWORK = 'NetworkId'];
    searchResult = [FIND 'Hello' WITH NETWORK IN ('NetworkId1', 'NetworkId2', 'NetworkId3')];
    searchResult = [FIND 'Hello' WITH NETWORK = '00000000000000'];
    searchResult = [FIND 'Hello' WITH NETWORK IN ('NetworkId1', 'NetworkId2', 'NetworkId3', 'NetworkId4', 'NetworkId5', 'NetworkId6')];
  }
  void withPricebookId() {
    List<List<SObject>> searchResult;
    searchResult = [FIND 'Hello' WITH PriceBookId = '01sxx0000002MffAAE'];
    searchResult = [FIND 'Hello' WITH PriceBookId = '01sxx0000002MffAAE' WITH PriceBookId = '01sxx0000002MffAAE' WITH PriceBookId = '01sxx0000002MffAAE'];
  }
  void withMetadata() {
    List<List<SObject>> searchResult;
    searchResult = [FIND 'Hello' WITH METADATA = 'LABELS'];
  }
  void withHighlight() {
    List<List<SObject>> searchResult;
    searchResult = [FIND 'Hello' WITH HIGHLIGHT];
  }
  void withSpellCorrection() {
    List<List<SObject>> searchResult;
    searchResult = [FIND 'Hello' WITH SPELL_CORRECTION = true];
    searchResult = [FIND 'Hello' WITH SPELL_CORRECTION = false];
  }
  void returning() {
    List<List<SObject>> searchResult;
    String a = 'World';
    List<String> multiple = new List<String>{'Hi', 'World'};
    searchResult = [FIND 'Hello' RETURNING Contact];
    searchResult = [FIND 'Hello' RETURNING Contact, Lead];
    searchResult = [FIND 'Hello' RETURNING Account(Name)];
    searchResult = [FIND 'Hello' RETURNING Contact(FirstName, LastName)];
    searchResult = [FIND 'Hello' RETURNING CustomObject__c(CustomField__c)];
    searchResult = [FIND 'Hello' RETURNING Contact(FirstName, LastName LIMIT 10), Account(Name, Industry)];
    searchResult = [FIND 'Hello' RETURNING Contact(FirstName, LastName ORDER BY FistName ASC), Account, Lead(FirstName)];
    searchResult = [FIND 'Hello' RETURNING Contact(FirstName, LastName ORDER BY LastName DESC LIMIT 20), Account(Name, Industry LIMIT 10), Opportunity LIMIT 50];
    searchResult = [FIND 'Hello' RETURNING Contact(FirstName, LastName OFFSET 10)];
    searchResult = [FIND 'Hello' IN ALL FIELDS RETURNING Account(Id, Name USING ListView=ListViewName)];
    searchResult = [FIND 'test' RETURNING Account (id WHERE createddate = THIS_FISCAL_QUARTER)];
    searchResult = [FIND 'test' RETURNING Account (id, Name WHERE Name = :a)];
    searchResult = [FIND 'test' RETURNING Account (id WHERE NAME IN :multiple)];
    searchResult = [FIND 'San Francisco'
      RETURNING My_Custom_Object__c (Id
      WHERE DISTANCE(My_Location_Field__c,GEOLOCATION(37,122),'mi') < 100)];
  }
  void updateStat() {
    List<List<String>> searchResult;
    searchResult = [FIND 'Title'
      RETURNING FAQ__kav (Title WHERE PublishStatus='Online' and
    language='en_US' and
    KnowledgeArticleVersion = 'ka230000000PCiy')
    UPDATE VIEWSTAT];
    searchResult = [FIND 'Keyword'
      RETURNING KnowledgeArticleVersion (Title WHERE PublishStatus='Online' and language='en_US')
    UPDATE TRACKING];
    searchResult = [FIND 'Keyword'
      RETURNING KnowledgeArticleVersion (Title WHERE PublishStatus='Online' and language='en_US')
    UPDATE TRACKING, VIEWSTAT];
  }
}
".
Definition prettier80_SOSL3_tree : span := (B "parser_output" 1 0 4811 0 103 [(B "class_declaration" 2 0 4810 0 102 [(A "class" 3 0 5 0 0 []); (B "identifier" 4 6 15 0 0 [] # "name"); (B "class_body" 5 16 4810 0 102 [(A "{" 6 16 17 0 0 []); (B "method_declaration" 7 20 262 1 7 [(B "void_type" 8 20 24 1 1 [] # "type"); (B "identifier" 9 25 35 1 1 [] # "name"); (B "formal_parameters" 10 35 37 1 1 [(A "(" 11 35 36 1 1 []); (A ")" 12 36 37 1 1 [])] # "parameters"); (B "block" 13 38 262 1 7 [(A "{" 14 38 39 1 1 []); (B "local_variable_declaration" 15 44 63 2 2 [(B "type_identifier" 16 44 50 2 2 [] # "type"); (B "variable_declarator" 17 51 62 2 2 [(B "identifier" 18 51 52 2 2 [] # "name"); (B "assignment_operator" 19 53 54 2 2 [(A "=" 20 53 54 2 2 [])]); (B "string_literal" 21 55 62 2 2 [] # "value")] # "declarator"); (A ";" 22 62 63 2 2 [])]); (B "local_variable_declaration" 23 68 126 3 3 [(B "generic_type" 24 68 87 3 3 [(B "type_identifier" 25 68 72 3 3 []); (B "type_arguments" 26 72 87 3 3 [(A "<" 27 72 73 3 3 []); (B "generic_type" 28 73 86 3 3 [(B "type_identifier" 29 73 77 3 3 []); (B "type_arguments" 30 77 86 3 3 [(A "<" 31 77 78 3 3 []); (B "type_identifier" 32 78 85 3 3 []); (A ">" 33 85 86 3 3 [])])]); (A ">" 34 86 87 3 3 [])])] # "type"); (B "variable_declarator" 35 88 125 3 3 [(B "identifier" 36 88 100 3 3 [] # "name"); (B "assignment_operator" 37 101 102 3 3 [(A "=" 38 101 102 3 3 [])]); (B "query_expression" 39 103 125 3 3 [(A "[" 40 103 104 3 3 []); (B "sosl_query_body" 41 104 124 3 3 [(B "find_clause" 42 104 124 3 3 [(A "FIND" 43 104 108 3 3 []); (A "'" 44 109 110 3 3 []); (B "term" 45 110 123 3 3 []); (A "'" 46 123 124 3 3 [])])]); (A "]" 47 124 125 3 3 [])] # "value")] # "declarator"); (A ";" 48 125 126 3 3 [])]); (B "expression_statement" 49 131 156 4 4 [(B "assignment_expression" 50 131 155 4 4 [(B "identifier" 51 131 143 4 4 [] # "left"); (B "assignment_operator" 52 144 145 4 4 [(A "=" 53 144 145 4 4 [])] # "operator"); (B "query_expression" 54 146 155 4 4 [(A "[" 55 146 147 4 4 []); (B "sosl_query_body" 56 147 154 4 4 [(B "find_clause" 57 147 154 4 4 [(A "FIND" 58 147 151 4 4 []); (B "bound_apex_expression" 59 152 154 4 4 [(A ":" 60 152 153 4 4 []); (B "identifier" 61 153 154 4 4 [])])])]); (A "]" 62 154 155 4 4 [])] # "right")]); (A ";" 63 155 156 4 4 [])]); (B "expression_statement" 64 161 206 5 5 [(B "assignment_expression" 65 161 205 5 5 [(B "identifier" 66 161 173 5 5 [] # "left"); (B "assignment_operator" 67 174 175 5 5 [(A "=" 68 174 175 5 5 [])] # "operator"); (B "query_expression" 69 176 205 5 5 [(A "[" 70 176 177 5 5 []); (B "sosl_query_body" 71 177 204 5 5 [(B "find_clause" 72 177 184 5 5 [(A "FIND" 73 177 181 5 5 []); (B "bound_apex_expression" 74 182 184 5 5 [(A ":" 75 182 183 5 5 []); (B "identifier" 76 183 184 5 5 [])])]); (B "sosl_using_clause" 77 185 204 5 5 [(A "USING" 78 185 190 5 5 []); (B "using_phrase_search" 79 191 204 5 5 [(A "PHRASE" 80 191 197 5 5 []); (A "SEARCH" 81 198 204 5 5 [])])])]); (A "]" 82 204 205 5 5 [])] # "right")]); (A ";" 83 205 206 5 5 [])]); (B "expression_statement" 84 211 258 6 6 [(B "assignment_expression" 85 211 257 6 6 [(B "identifier" 86 211 223 6 6 [] # "left"); (B "assignment_operator" 87 224 225 6 6 [(A "=" 88 224 225 6 6 [])] # "operator"); (B "query_expression" 89 226 257 6 6 [(A "[" 90 226 227 6 6 []); (B "sosl_query_body" 91 227 256 6 6 [(B "find_clause" 92 227 234 6 6 [(A "FIND" 93 227 231 6 6 []); (B "bound_apex_expression" 94 232 234 6 6 [(A ":" 95 232 233 6 6 []); (B "identifier" 96 233 234 6 6 [])])]); (B "sosl_using_clause" 97 235 256 6 6 [(A "USING" 98 235 240 6 6 []); (B "using_advanced_search" 99 241 256 6 6 [(A "ADVANCED" 100 241 249 6 6 []); (A "SEARCH" 101 250 256 6 6 [])])])]); (A "]" 102 256 257 6 6 [])] # "right")]); (A ";" 103 257 258 6 6 [])]); (A "}" 104 261 262 7 7 [])] # "body")]); (B "method_declaration" 105 266 410 9 12 [(B "void_type" 106 266 270 9 9 [] # "type"); (B "identifier" 107 271 289 9 9 [] # "name"); (B "formal_parameters" 108 289 291 9 9 [(A "(" 109 289 290 9 9 []); (A ")" 110 290 291 9 9 [])] # "parameters"); (B "block" 111 292 410 9 12 [(A "{" 112 292 293 9 9 []); (B "local_variable_declaration" 113 298 356 10 10 [(B "generic_type" 114 298 317 10 10 [(B "type_identifier" 115 298 302 10 10 []); (B "type_arguments" 116 302 317 10 10 [(A "<" 117 302 303 10 10 []); (B "generic_type" 118 303 316 10 10 [(B "type_identifier" 119 303 307 10 10 []); (B "type_arguments" 120 307 316 10 10 [(A "<" 121 307 308 10 10 []); (B "type_identifier" 122 308 315 10 10 []); (A ">" 123 315 316 10 10 [])])]); (A ">" 124 316 317 10 10 [])])] # "type"); (B "variable_declarator" 125 318 355 10 10 [(B "identifier" 126 318 330 10 10 [] # "name"); (B "assignment_operator" 127 331 332 10 10 [(A "=" 128 331 332 10 10 [])]); (B "query_expression" 129 333 355 10 10 [(A "[" 130 333 334 10 10 []); (B "sosl_query_body" 131 334 354 10 10 [(B "find_clause" 132 334 354 10 10 [(A "FIND" 133 334 338 10 10 []); (A "'" 134 339 340 10 10 []); (B "term" 135 340 353 10 10 []); (A "'" 136 353 354 10 10 [])])]); (A "]" 137 354 355 10 10 [])] # "value")] # "declarator"); (A ";" 138 355 356 10 10 [])]); (B "expression_statement" 139 361 406 11 11 [(B "assignment_expression" 140 361 405 11 11 [(B "identifier" 141 361 373 11 11 [] # "left"); (B "assignment_operator" 142 374 375 11 11 [(A "=" 143 374 375 11 11 [])] # "operator"); (B "query_expression" 144 376 405 11 11 [(A "[" 145 376 377 11 11 []); (B "sosl_query_body" 146 377 404 11 11 [(B "find_clause" 147 377 384 11 11 [(A "FIND" 148 377 381 11 11 []); (B "bound_apex_expression" 149 382 384 11 11 [(A ":" 150 382 383 11 11 []); (B "identifier" 151 383 384 11 11 [])])]); (B "sosl_using_clause" 152 385 404 11 11 [(A "USING" 153 385 390 11 11 []); (B "using_phrase_search" 154 391 404 11 11 [(A "PHRASE" 155 391 397 11 11 []); (A "SEARCH" 156 398 404 11 11 [])])])]); (A "]" 157 404 405 11 11 [])] # "right")]); (A ";" 158 405 406 11 11 [])]); (A "}" 159 409 410 12 12 [])] # "body")]); (B "method_declaration" 160 414 727 14 21 [(B "void_type" 161 414 418 14 14 [] # "type"); (B "identifier" 162 419 427 14 14 [] # "name"); (B "formal_parameters" 163 427 429 14 14 [(A "(" 164 427 428 14 14 []); (A ")" 165 428 429 14 14 [])] # "parameters"); (B "block" 166 430 727 14 21 [(A "{" 167 430 431 14 14 []); (B "local_variable_declaration" 168 436 469 15 15 [(B "generic_type" 169 436 455 15 15 [(B "type_identifier" 170 436 440 15 15 []); (B "type_arguments" 171 440 455 15 15 [(A "<" 172 440 441 15 15 []); (B "generic_type" 173 441 454 15 15 [(B "type_identifier" 174 441 445 15 15 []); (B "type_arguments" 175 445 454 15 15 [(A "<" 176 445 446 15 15 []); (B "type_identifier" 177 446 453 15 15 []); (A ">" 178 453 454 15 15 [])])]); (A ">" 179 454 455 15 15 [])])] # "type"); (B "variable_declarator" 180 456 468 15 15 [(B "identifier" 181 456 468 15 15 [] # "name")] # "declarator"); (A ";" 182 468 469 15 15 [])]); (B "expression_statement" 183 474 518 16 16 [(B "assignment_expression" 184 474 517 16 16 [(B "identifier" 185 474 486 16 16 [] # "left"); (B "assignment_operator" 186 487 488 16 16 [(A "=" 187 487 488 16 16 [])] # "operator"); (B "query_expression" 188 489 517 16 16 [(A "[" 189 489 490 16 16 []); (B "sosl_query_body" 190 490 516 16 16 [(B "find_clause" 191 490 502 16 16 [(A "FIND" 192 490 494 16 16 []); (A "'" 193 495 496 16 16 []); (B "term" 194 496 501 16 16 []); (A "'" 195 501 502 16 16 [])]); (B "in_clause" 196 503 516 16 16 [(A "IN" 197 503 505 16 16 []); (B "in_type" 198 506 509 16 16 [(A "ALL" 199 506 509 16 16 [])]); (A "FIELDS" 200 510 516 16 16 [])])]); (A "]" 201 516 517 16 16 [])] # "right")]); (A ";" 202 517 518 16 16 [])]); (B "expression_statement" 203 523 569 17 17 [(B "assignment_expression" 204 523 568 17 17 [(B "identifier" 205 523 535 17 17 [] # "left"); (B "assignment_operator" 206 536 537 17 17 [(A "=" 207 536 537 17 17 [])] # "operator"); (B "query_expression" 208 538 568 17 17 [(A "[" 209 538 539 17 17 []); (B "sosl_query_body" 210 539 567 17 17 [(B "find_clause" 211 539 551 17 17 [(A "FIND" 212 539 543 17 17 []); (A "'" 213 544 545 17 17 []); (B "term" 214 545 550 17 17 []); (A "'" 215 550 551 17 17 [])]); (B "in_clause" 216 552 567 17 17 [(A "IN" 217 552 554 17 17 []); (B "in_type" 218 555 560 17 17 [(A "EMAIL" 219 555 560 17 17 [])]); (A "FIELDS" 220 561 567 17 17 [])])]); (A "]" 221 567 568 17 17 [])] # "right")]); (A ";" 222 568 569 17 17 [])]); (B "expression_statement" 223 574 619 18 18 [(B "assignment_expression" 224 574 618 18 18 [(B "identifier" 225 574 586 18 18 [] # "left"); (B "assignment_operator" 226 587 588 18 18 [(A "=" 227 587 588 18 18 [])] # "operator"); (B "query_expression" 228 589 618 18 18 [(A "[" 229 589 590 18 18 []); (B "sosl_query_body" 230 590 617 18 18 [(B "find_clause" 231 590 602 18 18 [(A "FIND" 232 590 594 18 18 []); (A "'" 233 595 596 18 18 []); (B "term" 234 596 601 18 18 []); (A "'" 235 601 602 18 18 [])]); (B "in_clause" 236 603 617 18 18 [(A "IN" 237 603 605 18 18 []); (B "in_type" 238 606 610 18 18 [(A "NAME" 239 606 610 18 18 [])]); (A "FIELDS" 240 611 617 18 18 [])])]); (A "]" 241 617 618 18 18 [])] # "right")]); (A ";" 242 618 619 18 18 [])]); (B "expression_statement" 243 624 670 19 19 [(B "assignment_expression" 244 624 669 19 19 [(B "identifier" 245 624 636 19 19 [] # "left"); (B "assignment_operator" 246 637 638 19 19 [(A "=" 247 637 638 19 19 [])] # "operator"); (B "query_expression" 248 639 669 19 19 [(A "[" 249 639 640 19 19 []); (B "sosl_query_body" 250 640 668 19 19 [(B "find_clause" 251 640 652 19 19 [(A "FIND" 252 640 644 19 19 []); (A "'" 253 645 646 19 19 []); (B "term" 254 646 651 19 19 []); (A "'" 255 651 652 19 19 [])]); (B "in_clause" 256 653 668 19 19 [(A "IN" 257 653 655 19 19 []); (B "in_type" 258 656 661 19 19 [(A "PHONE" 259 656 661 19 19 [])]); (A "FIELDS" 260 662 668 19 19 [])])]); (A "]" 261 668 669 19 19 [])] # "right")]); (A ";" 262 669 670 19 19 [])]); (B "expression_statement" 263 675 723 20 20 [(B "assignment_expression" 264 675 722 20 20 [(B "identifier" 265 675 687 20 20 [] # "left"); (B "assignment_operator" 266 688 689 20 20 [(A "=" 267 688 689 20 20 [])] # "operator"); (B "query_expression" 268 690 722 20 20 [(A "[" 269 690 691 20 20 []); (B "sosl_query_body" 270 691 721 20 20 [(B "find_clause" 271 691 703 20 20 [(A "FIND" 272 691 695 20 20 []); (A "'" 273 696 697 20 20 []); (B "term" 274 697 702 20 20 []); (A "'" 275 702 703 20 20 [])]); (B "in_clause" 276 704 721 20 20 [(A "IN" 277 704 706 20 20 []); (B "in_type" 278 707 714 20 20 [(A "SIDEBAR" 279 707 714 20 20 [])]); (A "FIELDS" 280 715 721 20 20 [])])]); (A "]" 281 721 722 20 20 [])] # "right")]); (A ";" 282 722 723 20 20 [])]); (A "}" 283 726 727 21 21 [])] # "body")]); (B "method_declaration" 284 730 1017 22 28 [(B "void_type" 285 730 734 22 22 [] # "type"); (B "identifier" 286 735 753 22 22 [] # "name"); (B "formal_parameters" 287 753 755 22 22 [(A "(" 288 753 754 22 22 []); (A ")" 289 754 755 22 22 [])] # "parameters"); (B "block" 290 756 1017 22 28 [(A "{" 291 756 757 22 22 []); (B "local_variable_declaration" 292 762 795 23 23 [(B "generic_type" 293 762 781 23 23 [(B "type_identifier" 294 762 766 23 23 []); (B "type_arguments" 295 766 781 23 23 [(A "<" 296 766 767 23 23 []); (B "generic_type" 297 767 780 23 23 [(B "type_identifier" 298 767 771 23 23 []); (B "type_arguments" 299 771 780 23 23 [(A "<" 300 771 772 23 23 []); (B "type_identifier" 301 772 779 23 23 []); (A ">" 302 779 780 23 23 [])])]); (A ">" 303 780 781 23 23 [])])] # "type"); (B "variable_declarator" 304 782 794 23 23 [(B "identifier" 305 782 794 23 23 [] # "name")] # "declarator"); (A ";" 306 794 795 23 23 [])]); (B "local_variable_declaration" 307 800 819 24 24 [(B "type_identifier" 308 800 806 24 24 [] # "type"); (B "variable_declarator" 309 807 818 24 24 [(B "identifier" 310 807 808 24 24 [] # "name"); (B "assignment_operator" 311 809 810 24 24 [(A "=" 312 809 810 24 24 [])]); (B "string_literal" 313 811 818 24 24 [] # "value")] # "declarator"); (A ";" 314 818 819 24 24 [])]); (B "expression_statement" 315 824 879 25 25 [(B "assignment_expression" 316 824 878 25 25 [(B "identifier" 317 824 836 25 25 [] # "left"); (B "assignment_operator" 318 837 838 25 25 [(A "=" 319 837 838 25 25 [])] # "operator"); (B "query_expression" 320 839 878 25 25 [(A "[" 321 839 840 25 25 []); (B "sosl_query_body" 322 840 877 25 25 [(B "find_clause" 323 840 852 25 25 [(A "FIND" 324 840 844 25 25 []); (A "'" 325 845 846 25 25 []); (B "term" 326 846 851 25 25 []); (A "'" 327 851 852 25 25 [])]); (B "with_clause" 328 853 877 25 25 [(A "WITH" 329 853 857 25 25 []); (B "with_type" 330 858 877 25 25 [(B "with_division_expression" 331 858 877 25 25 [(A "Division" 332 858 866 25 25 []); (A "=" 333 867 868 25 25 []); (B "string_literal" 334 869 877 25 25 [])])])])]); (A "]" 335 877 878 25 25 [])] # "right")]); (A ";" 336 878 879 25 25 [])]); (B "expression_statement" 337 884 933 26 26 [(B "assignment_expression" 338 884 932 26 26 [(B "identifier" 339 884 896 26 26 [] # "left"); (B "assignment_operator" 340 897 898 26 26 [(A "=" 341 897 898 26 26 [])] # "operator"); (B "query_expression" 342 899 932 26 26 [(A "[" 343 899 900 26 26 []); (B "sosl_query_body" 344 900 931 26 26 [(B "find_clause" 345 900 912 26 26 [(A "FIND" 346 900 904 26 26 []); (A "'" 347 905 906 26 26 []); (B "term" 348 906 911 26 26 []); (A "'" 349 911 912 26 26 [])]); (B "with_clause" 350 913 931 26 26 [(A "WITH" 351 913 917 26 26 []); (B "with_type" 352 918 931 26 26 [(B "with_division_expression" 353 918 931 26 26 [(A "Division" 354 918 926 26 26 []); (A "=" 355 927 928 26 26 []); (B "bound_apex_expression" 356 929 931 26 26 [(A ":" 357 929 930 26 26 []); (B "identifier" 358 930 931 26 26 [])])])])])]); (A "]" 359 931 932 26 26 [])] # "right")]); (A ";" 360 932 933 26 26 [])]); (B "expression_statement" 361 938 1013 27 27 [(B "assignment_expression" 362 938 1012 27 27 [(B "identifier" 363 938 950 27 27 [] # "left"); (B "assignment_operator" 364 951 952 27 27 [(A "=" 365 951 952 27 27 [])] # "operator"); (B "query_expression" 366 953 1012 27 27 [(A "[" 367 953 954 27 27 []); (B "sosl_query_body" 368 955 1010 27 27 [(B "find_clause" 369 955 968 27 27 [(A "FIND" 370 955 959 27 27 []); (A "'" 371 960 961 27 27 []); (B "term" 372 961 967 27 27 []); (A "'" 373 967 968 27 27 [])]); (B "returning_clause" 374 969 986 27 27 [(A "RETURNING" 375 969 978 27 27 []); (B "sobject_return" 376 979 986 27 27 [(B "identifier" 377 979 986 27 27 [])])]); (B "with_clause" 378 987 1010 27 27 [(A "WITH" 379 987 991 27 27 []); (B "with_type" 380 992 1010 27 27 [(B "with_division_expression" 381 992 1010 27 27 [(A "DIVISION" 382 992 1000 27 27 []); (A "=" 383 1001 1002 27 27 []); (B "string_literal" 384 1002 1010 27 27 [])])])])]); (A "]" 385 1011 1012 27 27 [])] # "right")]); (A ";" 386 1012 1013 27 27 [])]); (A "}" 387 1016 1017 28 28 [])] # "body")]); (B "method_declaration" 388 1020 1392 29 35 [(B "void_type" 389 1020 1024 29 29 [] # "type"); (B "identifier" 390 1025 1041 29 29 [] # "name"); (B "formal_parameters" 391 1041 1043 29 29 [(A "(" 392 1041 1042 29 29 []); (A ")" 393 1042 1043 29 29 [])] # "parameters"); (B "block" 394 1044 1392 29 35 [(A "{" 395 1044 1045 29 29 []); (B "local_variable_declaration" 396 1050 1083 30 30 [(B "generic_type" 397 1050 1069 30 30 [(B "type_identifier" 398 1050 1054 30 30 []); (B "type_arguments" 399 1054 1069 30 30 [(A "<" 400 1054 1055 30 30 []); (B "generic_type" 401 1055 1068 30 30 [(B "type_identifier" 402 1055 1059 30 30 []); (B "type_arguments" 403 1059 1068 30 30 [(A "<" 404 1059 1060 30 30 []); (B "type_identifier" 405 1060 1067 30 30 []); (A ">" 406 1067 1068 30 30 [])])]); (A ">" 407 1068 1069 30 30 [])])] # "type"); (B "variable_declarator" 408 1070 1082 30 30 [(B "identifier" 409 1070 1082 30 30 [] # "name")] # "declarator"); (A ";" 410 1082 1083 30 30 [])]); (B "local_variable_declaration" 411 1088 1107 31 31 [(B "type_identifier" 412 1088 1094 31 31 [] # "type"); (B "variable_declarator" 413 1095 1106 31 31 [(B "identifier" 414 1095 1096 31 31 [] # "name"); (B "assignment_operator" 415 1097 1098 31 31 [(A "=" 416 1097 1098 31 31 [])]); (B "string_literal" 417 1099 1106 31 31 [] # "value")] # "declarator"); (A ";" 418 1106 1107 31 31 [])]); (B "expression_statement" 419 1112 1187 32 32 [(B "assignment_expression" 420 1112 1186 32 32 [(B "identifier" 421 1112 1124 32 32 [] # "left"); (B "assignment_operator" 422 1125 1126 32 32 [(A "=" 423 1125 1126 32 32 [])] # "operator"); (B "query_expression" 424 1127 1186 32 32 [(A "[" 425 1127 1128 32 32 []); (B "sosl_query_body" 426 1128 1185 32 32 [(B "find_clause" 427 1128 1140 32 32 [(A "FIND" 428 1128 1132 32 32 []); (A "'" 429 1133 1134 32 32 []); (B "term" 430 1134 1139 32 32 []); (A "'" 431 1139 1140 32 32 [])]); (B "with_clause" 432 1141 1185 32 32 [(A "WITH" 433 1141 1145 32 32 []); (B "with_type" 434 1146 1185 32 32 [(B "with_data_cat_expression" 435 1146 1185 32 32 [(A "DATA" 436 1146 1150 32 32 []); (A "CATEGORY" 437 1151 1159 32 32 []); (B "with_data_cat_filter" 438 1160 1185 32 32 [(B "identifier" 439 1160 1171 32 32 []); (B "with_data_cat_filter_type" 440 1172 1174 32 32 [(A "AT" 441 1172 1174 32 32 [])]); (B "identifier" 442 1175 1185 32 32 [])])])])])]); (A "]" 443 1185 1186 32 32 [])] # "right")]); (A ";" 444 1186 1187 32 32 [])]); (B "expression_statement" 445 1192 1305 33 33 [(B "assignment_expression" 446 1192 1304 33 33 [(B "identifier" 447 1192 1204 33 33 [] # "left"); (B "assignment_operator" 448 1205 1206 33 33 [(A "=" 449 1205 1206 33 33 [])] # "operator"); (B "query_expression" 450 1207 1304 33 33 [(A "[" 451 1207 1208 33 33 []); (B "sosl_query_body" 452 1208 1303 33 33 [(B "find_clause" 453 1208 1220 33 33 [(A "FIND" 454 1208 1212 33 33 []); (A "'" 455 1213 1214 33 33 []); (B "term" 456 1214 1219 33 33 []); (A "'" 457 1219 1220 33 33 [])]); (B "with_clause" 458 1221 1303 33 33 [(A "WITH" 459 1221 1225 33 33 []); (B "with_type" 460 1226 1303 33 33 [(B "with_data_cat_expression" 461 1226 1303 33 33 [(A "DATA" 462 1226 1230 33 33 []); (A "CATEGORY" 463 1231 1239 33 33 []); (B "with_data_cat_filter" 464 1240 1268 33 33 [(B "identifier" 465 1240 1252 33 33 []); (B "with_data_cat_filter_type" 466 1253 1258 33 33 [(A "ABOVE" 467 1253 1258 33 33 [])]); (B "identifier" 468 1259 1268 33 33 [])]); (A "AND" 469 1269 1272 33 33 []); (B "with_data_cat_filter" 470 1273 1303 33 33 [(B "identifier" 471 1273 1283 33 33 []); (B "with_data_cat_filter_type" 472 1284 1286 33 33 [(A "AT" 473 1284 1286 33 33 [])]); (B "identifier" 474 1287 1303 33 33 [])])])])])]); (A "]" 475 1303 1304 33 33 [])] # "right")]); (A ";" 476 1304 1305 33 33 [])]); (B "expression_statement" 477 1310 1388 34 34 [(B "assignment_expression" 478 1310 1387 34 34 [(B "identifier" 479 1310 1322 34 34 [] # "left"); (B "assignment_operator" 480 1323 1324 34 34 [(A "=" 481 1323 1324 34 34 [])] # "operator"); (B "query_expression" 482 1325 1387 34 34 [(A "[" 483 1325 1326 34 34 []); (B "sosl_query_body" 484 1326 1386 34 34 [(B "find_clause" 485 1326 1338 34 34 [(A "FIND" 486 1326 1330 34 34 []); (A "'" 487 1331 1332 34 34 []); (B "term" 488 1332 1337 34 34 []); (A "'" 489 1337 1338 34 34 [])]); (B "with_clause" 490 1339 1386 34 34 [(A "WITH" 491 1339 1343 34 34 []); (B "with_type" 492 1344 1386 34 34 [(B "with_data_cat_expression" 493 1344 1386 34 34 [(A "DATA" 494 1344 1348 34 34 []); (A "CATEGORY" 495 1349 1357 34 34 []); (B "with_data_cat_filter" 496 1358 1386 34 34 [(B "identifier" 497 1358 1370 34 34 []); (B "with_data_cat_filter_type" 498 1371 1376 34 34 [(A "below" 499 1371 1376 34 34 [])]); (B "identifier" 500 1377 1386 34 34 [])])])])])]); (A "]" 501 1386 1387 34 34 [])] # "right")]); (A ";" 502 1387 1388 34 34 [])]); (A "}" 503 1391 1392 35 35 [])] # "body")]); (B "method_declaration" 504 1395 1597 36 41 [(B "void_type" 505 1395 1399 36 36 [] # "type"); (B "identifier" 506 1400 1411 36 36 [] # "name"); (B "formal_parameters" 507 1411 1413 36 36 [(A "(" 508 1411 1412 36 36 []); (A ")" 509 1412 1413 36 36 [])] # "parameters"); (B "block" 510 1414 1597 36 41 [(A "{" 511 1414 1415 36 36 []); (B "local_variable_declaration" 512 1420 1453 37 37 [(B "generic_type" 513 1420 1439 37 37 [(B "type_identifier" 514 1420 1424 37 37 []); (B "type_arguments" 515 1424 1439 37 37 [(A "<" 516 1424 1425 37 37 []); (B "generic_type" 517 1425 1438 37 37 [(B "type_identifier" 518 1425 1429 37 37 []); (B "type_arguments" 519 1429 1438 37 37 [(A "<" 520 1429 1430 37 37 []); (B "type_identifier" 521 1430 1437 37 37 []); (A ">" 522 1437 1438 37 37 [])])]); (A ">" 523 1438 1439 37 37 [])])] # "type"); (B "variable_declarator" 524 1440 1452 37 37 [(B "identifier" 525 1440 1452 37 37 [] # "name")] # "declarator"); (A ";" 526 1452 1453 37 37 [])]); (B "local_variable_declaration" 527 1458 1477 38 38 [(B "type_identifier" 528 1458 1464 38 38 [] # "type"); (B "variable_declarator" 529 1465 1476 38 38 [(B "identifier" 530 1465 1466 38 38 [] # "name"); (B "assignment_operator" 531 1467 1468 38 38 [(A "=" 532 1467 1468 38 38 [])]); (B "string_literal" 533 1469 1476 38 38 [] # "value")] # "declarator"); (A ";" 534 1476 1477 38 38 [])]); (B "expression_statement" 535 1482 1525 39 39 [(B "assignment_expression" 536 1482 1524 39 39 [(B "identifier" 537 1482 1494 39 39 [] # "left"); (B "assignment_operator" 538 1495 1496 39 39 [(A "=" 539 1495 1496 39 39 [])] # "operator"); (B "query_expression" 540 1497 1524 39 39 [(A "[" 541 1497 1498 39 39 []); (B "sosl_query_body" 542 1498 1523 39 39 [(B "find_clause" 543 1498 1510 39 39 [(A "FIND" 544 1498 1502 39 39 []); (A "'" 545 1503 1504 39 39 []); (B "term" 546 1504 1509 39 39 []); (A "'" 547 1509 1510 39 39 [])]); (B "with_clause" 548 1511 1523 39 39 [(A "WITH" 549 1511 1515 39 39 []); (B "with_type" 550 1516 1523 39 39 [(B "with_snippet_expression" 551 1516 1523 39 39 [(A "SNIPPET" 552 1516 1523 39 39 [])])])])]); (A "]" 553 1523 1524 39 39 [])] # "right")]); (A ";" 554 1524 1525 39 39 [])]); (B "expression_statement" 555 1530 1593 40 40 [(B "assignment_expression" 556 1530 1592 40 40 [(B "identifier" 557 1530 1542 40 40 [] # "left"); (B "assignment_operator" 558 1543 1544 40 40 [(A "=" 559 1543 1544 40 40 [])] # "operator"); (B "query_expression" 560 1545 1592 40 40 [(A "[" 561 1545 1546 40 40 []); (B "sosl_query_body" 562 1546 1591 40 40 [(B "find_clause" 563 1546 1558 40 40 [(A "FIND" 564 1546 1550 40 40 []); (A "'" 565 1551 1552 40 40 []); (B "term" 566 1552 1557 40 40 []); (A "'" 567 1557 1558 40 40 [])]); (B "with_clause" 568 1559 1591 40 40 [(A "WITH" 569 1559 1563 40 40 []); (B "with_type" 570 1564 1591 40 40 [(B "with_snippet_expression" 571 1564 1591 40 40 [(A "SNIPPET" 572 1564 1571 40 40 []); (A "(" 573 1572 1573 40 40 []); (A "TARGET_LENGTH" 574 1573 1586 40 40 []); (A "=" 575 1586 1587 40 40 []); (B "int" 576 1587 1590 40 40 []); (A ")" 577 1590 1591 40 40 [])])])])]); (A "]" 578 1591 1592 40 40 [])] # "right")]); (A ";" 579 1592 1593 40 40 [])]); (A "}" 580 1596 1597 41 41 [])] # "body")]); (B "method_declaration" 581 1600 2021 42 48 [(B "void_type" 582 1600 1604 42 42 [] # "type"); (B "identifier" 583 1605 1616 42 42 [] # "name"); (B "formal_parameters" 584 1616 1618 42 42 [(A "(" 585 1616 1617 42 42 []); (A ")" 586 1617 1618 42 42 [])] # "parameters"); (B "block" 587 1619 2021 42 48 [(A "{" 588 1619 1620 42 42 []); (B "local_variable_declaration" 589 1625 1658 43 43 [(B "generic_type" 590 1625 1644 43 43 [(B "type_identifier" 591 1625 1629 43 43 []); (B "type_arguments" 592 1629 1644 43 43 [(A "<" 593 1629 1630 43 43 []); (B "generic_type" 594 1630 1643 43 43 [(B "type_identifier" 595 1630 1634 43 43 []); (B "type_arguments" 596 1634 1643 43 43 [(A "<" 597 1634 1635 43 43 []); (B "type_identifier" 598 1635 1642 43 43 []); (A ">" 599 1642 1643 43 43 [])])]); (A ">" 600 1643 1644 43 43 [])])] # "type"); (B "variable_declarator" 601 1645 1657 43 43 [(B "identifier" 602 1645 1657 43 43 [] # "name")] # "declarator"); (A ";" 603 1657 1658 43 43 [])]); (B "expression_statement" 604 1663 1720 44 44 [(B "assignment_expression" 605 1663 1719 44 44 [(B "identifier" 606 1663 1675 44 44 [] # "left"); (B "assignment_operator" 607 1676 1677 44 44 [(A "=" 608 1676 1677 44 44 [])] # "operator"); (B "query_expression" 609 1678 1719 44 44 [(A "[" 610 1678 1679 44 44 []); (B "sosl_query_body" 611 1679 1718 44 44 [(B "find_clause" 612 1679 1691 44 44 [(A "FIND" 613 1679 1683 44 44 []); (A "'" 614 1684 1685 44 44 []); (B "term" 615 1685 1690 44 44 []); (A "'" 616 1690 1691 44 44 [])]); (B "with_clause" 617 1692 1718 44 44 [(A "WITH" 618 1692 1696 44 44 []); (B "with_type" 619 1697 1718 44 44 [(B "with_network_expression" 620 1697 1718 44 44 [(A "NETWORK" 621 1697 1704 44 44 []); (B "value_comparison_operator" 622 1705 1706 44 44 [(A "=" 623 1705 1706 44 44 [])]); (B "string_literal" 624 1707 1718 44 44 [])])])])]); (A "]" 625 1718 1719 44 44 [])] # "right")]); (A ";" 626 1719 1720 44 44 [])]); (B "expression_statement" 627 1725 1814 45 45 [(B "assignment_expression" 628 1725 1813 45 45 [(B "identifier" 629 1725 1737 45 45 [] # "left"); (B "assignment_operator" 630 1738 1739 45 45 [(A "=" 631 1738 1739 45 45 [])] # "operator"); (B "query_expression" 632 1740 1813 45 45 [(A "[" 633 1740 1741 45 45 []); (B "sosl_query_body" 634 1741 1812 45 45 [(B "find_clause" 635 1741 1753 45 45 [(A "FIND" 636 1741 1745 45 45 []); (A "'" 637 1746 1747 45 45 []); (B "term" 638 1747 1752 45 45 []); (A "'" 639 1752 1753 45 45 [])]); (B "with_clause" 640 1754 1812 45 45 [(A "WITH" 641 1754 1758 45 45 []); (B "with_type" 642 1759 1812 45 45 [(B "with_network_expression" 643 1759 1812 45 45 [(A "NETWORK" 644 1759 1766 45 45 []); (B "set_comparison_operator" 645 1767 1769 45 45 [(A "IN" 646 1767 1769 45 45 [])]); (B "comparable_list" 647 1770 1812 45 45 [(A "(" 648 1770 1771 45 45 []); (B "string_literal" 649 1771 1783 45 45 []); (A "," 650 1783 1784 45 45 []); (B "string_literal" 651 1785 1797 45 45 []); (A "," 652 1797 1798 45 45 []); (B "string_literal" 653 1799 1811 45 45 []); (A ")" 654 1811 1812 45 45 [])])])])])]); (A "]" 655 1812 1813 45 45 [])] # "right")]); (A ";" 656 1813 1814 45 45 [])]); (B "expression_statement" 657 1819 1881 46 46 [(B "assignment_expression" 658 1819 1880 46 46 [(B "identifier" 659 1819 1831 46 46 [] # "left"); (B "assignment_operator" 660 1832 1833 46 46 [(A "=" 661 1832 1833 46 46 [])] # "operator"); (B "query_expression" 662 1834 1880 46 46 [(A "[" 663 1834 1835 46 46 []); (B "sosl_query_body" 664 1835 1879 46 46 [(B "find_clause" 665 1835 1847 46 46 [(A "FIND" 666 1835 1839 46 46 []); (A "'" 667 1840 1841 46 46 []); (B "term" 668 1841 1846 46 46 []); (A "'" 669 1846 1847 46 46 [])]); (B "with_clause" 670 1848 1879 46 46 [(A "WITH" 671 1848 1852 46 46 []); (B "with_type" 672 1853 1879 46 46 [(B "with_network_expression" 673 1853 1879 46 46 [(A "NETWORK" 674 1853 1860 46 46 []); (B "value_comparison_operator" 675 1861 1862 46 46 [(A "=" 676 1861 1862 46 46 [])]); (B "string_literal" 677 1863 1879 46 46 [])])])])]); (A "]" 678 1879 1880 46 46 [])] # "right")]); (A ";" 679 1880 1881 46 46 [])]); (B "expression_statement" 680 1886 2017 47 47 [(B "assignment_expression" 681 1886 2016 47 47 [(B "identifier" 682 1886 1898 47 47 [] # "left"); (B "assignment_operator" 683 1899 1900 47 47 [(A "=" 684 1899 1900 47 47 [])] # "operator"); (B "query_expression" 685 1901 2016 47 47 [(A "[" 686 1901 1902 47 47 []); (B "sosl_query_body" 687 1902 2015 47 47 [(B "find_clause" 688 1902 1914 47 47 [(A "FIND" 689 1902 1906 47 47 []); (A "'" 690 1907 1908 47 47 []); (B "term" 691 1908 1913 47 47 []); (A "'" 692 1913 1914 47 47 [])]); (B "with_clause" 693 1915 2015 47 47 [(A "WITH" 694 1915 1919 47 47 []); (B "with_type" 695 1920 2015 47 47 [(B "with_network_expression" 696 1920 2015 47 47 [(A "NETWORK" 697 1920 1927 47 47 []); (B "set_comparison_operator" 698 1928 1930 47 47 [(A "IN" 699 1928 1930 47 47 [])]); (B "comparable_list" 700 1931 2015 47 47 [(A "(" 701 1931 1932 47 47 []); (B "string_literal" 702 1932 1944 47 47 []); (A "," 703 1944 1945 47 47 []); (B "string_literal" 704 1946 1958 47 47 []); (A "," 705 1958 1959 47 47 []); (B "string_literal" 706 1960 1972 47 47 []); (A "," 707 1972 1973 47 47 []); (B "string_literal" 708 1974 1986 47 47 []); (A "," 709 1986 1987 47 47 []); (B "string_literal" 710 1988 2000 47 47 []); (A "," 711 2000 2001 47 47 []); (B "string_literal" 712 2002 2014 47 47 []); (A ")" 713 2014 2015 47 47 [])])])])])]); (A "]" 714 2015 2016 47 47 [])] # "right")]); (A ";" 715 2016 2017 47 47 [])]); (A "}" 716 2020 2021 48 48 [])] # "body")]); (B "method_declaration" 717 2024 2320 49 53 [(B "void_type" 718 2024 2028 49 49 [] # "type"); (B "identifier" 719 2029 2044 49 49 [] # "name"); (B "formal_parameters" 720 2044 2046 49 49 [(A "(" 721 2044 2045 49 49 []); (A ")" 722 2045 2046 49 49 [])] # "parameters"); (B "block" 723 2047 2320 49 53 [(A "{" 724 2047 2048 49 49 []); (B "local_variable_declaration" 725 2053 2086 50 50 [(B "generic_type" 726 2053 2072 50 50 [(B "type_identifier" 727 2053 2057 50 50 []); (B "type_arguments" 728 2057 2072 50 50 [(A "<" 729 2057 2058 50 50 []); (B "generic_type" 730 2058 2071 50 50 [(B "type_identifier" 731 2058 2062 50 50 []); (B "type_arguments" 732 2062 2071 50 50 [(A "<" 733 2062 2063 50 50 []); (B "type_identifier" 734 2063 2070 50 50 []); (A ">" 735 2070 2071 50 50 [])])]); (A ">" 736 2071 2072 50 50 [])])] # "type"); (B "variable_declarator" 737 2073 2085 50 50 [(B "identifier" 738 2073 2085 50 50 [] # "name")] # "declarator"); (A ";" 739 2085 2086 50 50 [])]); (B "expression_statement" 740 2091 2161 51 51 [(B "assignment_expression" 741 2091 2160 51 51 [(B "identifier" 742 2091 2103 51 51 [] # "left"); (B "assignment_operator" 743 2104 2105 51 51 [(A "=" 744 2104 2105 51 51 [])] # "operator"); (B "query_expression" 745 2106 2160 51 51 [(A "[" 746 2106 2107 51 51 []); (B "sosl_query_body" 747 2107 2159 51 51 [(B "find_clause" 748 2107 2119 51 51 [(A "FIND" 749 2107 2111 51 51 []); (A "'" 750 2112 2113 51 51 []); (B "term" 751 2113 2118 51 51 []); (A "'" 752 2118 2119 51 51 [])]); (B "with_clause" 753 2120 2159 51 51 [(A "WITH" 754 2120 2124 51 51 []); (B "with_type" 755 2125 2159 51 51 [(B "with_pricebook_expression" 756 2125 2159 51 51 [(A "PriceBookId" 757 2125 2136 51 51 []); (A "=" 758 2137 2138 51 51 []); (B "string_literal" 759 2139 2159 51 51 [])])])])]); (A "]" 760 2159 2160 51 51 [])] # "right")]); (A ";" 761 2160 2161 51 51 [])]); (B "expression_statement" 762 2166 2316 52 52 [(B "assignment_expression" 763 2166 2315 52 52 [(B "identifier" 764 2166 2178 52 52 [] # "left"); (B "assignment_operator" 765 2179 2180 52 52 [(A "=" 766 2179 2180 52 52 [])] # "operator"); (B "query_expression" 767 2181 2315 52 52 [(A "[" 768 2181 2182 52 52 []); (B "sosl_query_body" 769 2182 2314 52 52 [(B "find_clause" 770 2182 2194 52 52 [(A "FIND" 771 2182 2186 52 52 []); (A "'" 772 2187 2188 52 52 []); (B "term" 773 2188 2193 52 52 []); (A "'" 774 2193 2194 52 52 [])]); (B "with_clause" 775 2195 2234 52 52 [(A "WITH" 776 2195 2199 52 52 []); (B "with_type" 777 2200 2234 52 52 [(B "with_pricebook_expression" 778 2200 2234 52 52 [(A "PriceBookId" 779 2200 2211 52 52 []); (A "=" 780 2212 2213 52 52 []); (B "string_literal" 781 2214 2234 52 52 [])])])]); (B "with_clause" 782 2235 2274 52 52 [(A "WITH" 783 2235 2239 52 52 []); (B "with_type" 784 2240 2274 52 52 [(B "with_pricebook_expression" 785 2240 2274 52 52 [(A "PriceBookId" 786 2240 2251 52 52 []); (A "=" 787 2252 2253 52 52 []); (B "string_literal" 788 2254 2274 52 52 [])])])]); (B "with_clause" 789 2275 2314 52 52 [(A "WITH" 790 2275 2279 52 52 []); (B "with_type" 791 2280 2314 52 52 [(B "with_pricebook_expression" 792 2280 2314 52 52 [(A "PriceBookId" 793 2280 2291 52 52 []); (A "=" 794 2292 2293 52 52 []); (B "string_literal" 795 2294 2314 52 52 [])])])])]); (A "]" 796 2314 2315 52 52 [])] # "right")]); (A ";" 797 2315 2316 52 52 [])]); (A "}" 798 2319 2320 53 53 [])] # "body")]); (B "method_declaration" 799 2323 2446 54 57 [(B "void_type" 800 2323 2327 54 54 [] # "type"); (B "identifier" 801 2328 2340 54 54 [] # "name"); (B "formal_parameters" 802 2340 2342 54 54 [(A "(" 803 2340 2341 54 54 []); (A ")" 804 2341 2342 54 54 [])] # "parameters"); (B "block" 805 2343 2446 54 57 [(A "{" 806 2343 2344 54 54 []); (B "local_variable_declaration" 807 2349 2382 55 55 [(B "generic_type" 808 2349 2368 55 55 [(B "type_identifier" 809 2349 2353 55 55 []); (B "type_arguments" 810 2353 2368 55 55 [(A "<" 811 2353 2354 55 55 []); (B "generic_type" 812 2354 2367 55 55 [(B "type_identifier" 813 2354 2358 55 55 []); (B "type_arguments" 814 2358 2367 55 55 [(A "<" 815 2358 2359 55 55 []); (B "type_identifier" 816 2359 2366 55 55 []); (A ">" 817 2366 2367 55 55 [])])]); (A ">" 818 2367 2368 55 55 [])])] # "type"); (B "variable_declarator" 819 2369 2381 55 55 [(B "identifier" 820 2369 2381 55 55 [] # "name")] # "declarator"); (A ";" 821 2381 2382 55 55 [])]); (B "expression_statement" 822 2387 2442 56 56 [(B "assignment_expression" 823 2387 2441 56 56 [(B "identifier" 824 2387 2399 56 56 [] # "left"); (B "assignment_operator" 825 2400 2401 56 56 [(A "=" 826 2400 2401 56 56 [])] # "operator"); (B "query_expression" 827 2402 2441 56 56 [(A "[" 828 2402 2403 56 56 []); (B "sosl_query_body" 829 2403 2440 56 56 [(B "find_clause" 830 2403 2415 56 56 [(A "FIND" 831 2403 2407 56 56 []); (A "'" 832 2408 2409 56 56 []); (B "term" 833 2409 2414 56 56 []); (A "'" 834 2414 2415 56 56 [])]); (B "with_clause" 835 2416 2440 56 56 [(A "WITH" 836 2416 2420 56 56 []); (B "with_type" 837 2421 2440 56 56 [(B "with_metadata_expression" 838 2421 2440 56 56 [(A "METADATA" 839 2421 2429 56 56 []); (A "=" 840 2430 2431 56 56 []); (B "string_literal" 841 2432 2440 56 56 [])])])])]); (A "]" 842 2440 2441 56 56 [])] # "right")]); (A ";" 843 2441 2442 56 56 [])]); (A "}" 844 2445 2446 57 57 [])] # "body")]); (B "method_declaration" 845 2449 2563 58 61 [(B "void_type" 846 2449 2453 58 58 [] # "type"); (B "identifier" 847 2454 2467 58 58 [] # "name"); (B "formal_parameters" 848 2467 2469 58 58 [(A "(" 849 2467 2468 58 58 []); (A ")" 850 2468 2469 58 58 [])] # "parameters"); (B "block" 851 2470 2563 58 61 [(A "{" 852 2470 2471 58 58 []); (B "local_variable_declaration" 853 2476 2509 59 59 [(B "generic_type" 854 2476 2495 59 59 [(B "type_identifier" 855 2476 2480 59 59 []); (B "type_arguments" 856 2480 2495 59 59 [(A "<" 857 2480 2481 59 59 []); (B "generic_type" 858 2481 2494 59 59 [(B "type_identifier" 859 2481 2485 59 59 []); (B "type_arguments" 860 2485 2494 59 59 [(A "<" 861 2485 2486 59 59 []); (B "type_identifier" 862 2486 2493 59 59 []); (A ">" 863 2493 2494 59 59 [])])]); (A ">" 864 2494 2495 59 59 [])])] # "type"); (B "variable_declarator" 865 2496 2508 59 59 [(B "identifier" 866 2496 2508 59 59 [] # "name")] # "declarator"); (A ";" 867 2508 2509 59 59 [])]); (B "expression_statement" 868 2514 2559 60 60 [(B "assignment_expression" 869 2514 2558 60 60 [(B "identifier" 870 2514 2526 60 60 [] # "left"); (B "assignment_operator" 871 2527 2528 60 60 [(A "=" 872 2527 2528 60 60 [])] # "operator"); (B "query_expression" 873 2529 2558 60 60 [(A "[" 874 2529 2530 60 60 []); (B "sosl_query_body" 875 2530 2557 60 60 [(B "find_clause" 876 2530 2542 60 60 [(A "FIND" 877 2530 2534 60 60 []); (A "'" 878 2535 2536 60 60 []); (B "term" 879 2536 2541 60 60 []); (A "'" 880 2541 2542 60 60 [])]); (B "with_clause" 881 2543 2557 60 60 [(A "WITH" 882 2543 2547 60 60 []); (B "with_type" 883 2548 2557 60 60 [(B "with_highlight" 884 2548 2557 60 60 [(A "HIGHLIGHT" 885 2548 2557 60 60 [])])])])]); (A "]" 886 2557 2558 60 60 [])] # "right")]); (A ";" 887 2558 2559 60 60 [])]); (A "}" 888 2562 2563 61 61 [])] # "body")]); (B "method_declaration" 889 2566 2765 62 66 [(B "void_type" 890 2566 2570 62 62 [] # "type"); (B "identifier" 891 2571 2590 62 62 [] # "name"); (B "formal_parameters" 892 2590 2592 62 62 [(A "(" 893 2590 2591 62 62 []); (A ")" 894 2591 2592 62 62 [])] # "parameters"); (B "block" 895 2593 2765 62 66 [(A "{" 896 2593 2594 62 62 []); (B "local_variable_declaration" 897 2599 2632 63 63 [(B "generic_type" 898 2599 2618 63 63 [(B "type_identifier" 899 2599 2603 63 63 []); (B "type_arguments" 900 2603 2618 63 63 [(A "<" 901 2603 2604 63 63 []); (B "generic_type" 902 2604 2617 63 63 [(B "type_identifier" 903 2604 2608 63 63 []); (B "type_arguments" 904 2608 2617 63 63 [(A "<" 905 2608 2609 63 63 []); (B "type_identifier" 906 2609 2616 63 63 []); (A ">" 907 2616 2617 63 63 [])])]); (A ">" 908 2617 2618 63 63 [])])] # "type"); (B "variable_declarator" 909 2619 2631 63 63 [(B "identifier" 910 2619 2631 63 63 [] # "name")] # "declarator"); (A ";" 911 2631 2632 63 63 [])]); (B "expression_statement" 912 2637 2696 64 64 [(B "assignment_expression" 913 2637 2695 64 64 [(B "identifier" 914 2637 2649 64 64 [] # "left"); (B "assignment_operator" 915 2650 2651 64 64 [(A "=" 916 2650 2651 64 64 [])] # "operator"); (B "query_expression" 917 2652 2695 64 64 [(A "[" 918 2652 2653 64 64 []); (B "sosl_query_body" 919 2653 2694 64 64 [(B "find_clause" 920 2653 2665 64 64 [(A "FIND" 921 2653 2657 64 64 []); (A "'" 922 2658 2659 64 64 []); (B "term" 923 2659 2664 64 64 []); (A "'" 924 2664 2665 64 64 [])]); (B "with_clause" 925 2666 2694 64 64 [(A "WITH" 926 2666 2670 64 64 []); (B "with_type" 927 2671 2694 64 64 [(B "with_spell_correction_expression" 928 2671 2694 64 64 [(A "SPELL_CORRECTION" 929 2671 2687 64 64 []); (A "=" 930 2688 2689 64 64 []); (B "boolean" 931 2690 2694 64 64 [(A "true" 932 2690 2694 64 64 [])])])])])]); (A "]" 933 2694 2695 64 64 [])] # "right")]); (A ";" 934 2695 2696 64 64 [])]); (B "expression_statement" 935 2701 2761 65 65 [(B "assignment_expression" 936 2701 2760 65 65 [(B "identifier" 937 2701 2713 65 65 [] # "left"); (B "assignment_operator" 938 2714 2715 65 65 [(A "=" 939 2714 2715 65 65 [])] # "operator"); (B "query_expression" 940 2716 2760 65 65 [(A "[" 941 2716 2717 65 65 []); (B "sosl_query_body" 942 2717 2759 65 65 [(B "find_clause" 943 2717 2729 65 65 [(A "FIND" 944 2717 2721 65 65 []); (A "'" 945 2722 2723 65 65 []); (B "term" 946 2723 2728 65 65 []); (A "'" 947 2728 2729 65 65 [])]); (B "with_clause" 948 2730 2759 65 65 [(A "WITH" 949 2730 2734 65 65 []); (B "with_type" 950 2735 2759 65 65 [(B "with_spell_correction_expression" 951 2735 2759 65 65 [(A "SPELL_CORRECTION" 952 2735 2751 65 65 []); (A "=" 953 2752 2753 65 65 []); (B "boolean" 954 2754 2759 65 65 [(A "false" 955 2754 2759 65 65 [])])])])])]); (A "]" 956 2759 2760 65 65 [])] # "right")]); (A ";" 957 2760 2761 65 65 [])]); (A "}" 958 2764 2765 66 66 [])] # "body")]); (B "method_declaration" 959 2768 4231 67 87 [(B "void_type" 960 2768 2772 67 67 [] # "type"); (B "identifier" 961 2773 2782 67 67 [] # "name"); (B "formal_parameters" 962 2782 2784 67 67 [(A "(" 963 2782 2783 67 67 []); (A ")" 964 2783 2784 67 67 [])] # "parameters"); (B "block" 965 2785 4231 67 87 [(A "{" 966 2785 2786 67 67 []); (B "local_variable_declaration" 967 2791 2824 68 68 [(B "generic_type" 968 2791 2810 68 68 [(B "type_identifier" 969 2791 2795 68 68 []); (B "type_arguments" 970 2795 2810 68 68 [(A "<" 971 2795 2796 68 68 []); (B "generic_type" 972 2796 2809 68 68 [(B "type_identifier" 973 2796 2800 68 68 []); (B "type_arguments" 974 2800 2809 68 68 [(A "<" 975 2800 2801 68 68 []); (B "type_identifier" 976 2801 2808 68 68 []); (A ">" 977 2808 2809 68 68 [])])]); (A ">" 978 2809 2810 68 68 [])])] # "type"); (B "variable_declarator" 979 2811 2823 68 68 [(B "identifier" 980 2811 2823 68 68 [] # "name")] # "declarator"); (A ";" 981 2823 2824 68 68 [])]); (B "local_variable_declaration" 982 2829 2848 69 69 [(B "type_identifier" 983 2829 2835 69 69 [] # "type"); (B "variable_declarator" 984 2836 2847 69 69 [(B "identifier" 985 2836 2837 69 69 [] # "name"); (B "assignment_operator" 986 2838 2839 69 69 [(A "=" 987 2838 2839 69 69 [])]); (B "string_literal" 988 2840 2847 69 69 [] # "value")] # "declarator"); (A ";" 989 2847 2848 69 69 [])]); (B "local_variable_declaration" 990 2853 2909 70 70 [(B "generic_type" 991 2853 2865 70 70 [(B "type_identifier" 992 2853 2857 70 70 []); (B "type_arguments" 993 2857 2865 70 70 [(A "<" 994 2857 2858 70 70 []); (B "type_identifier" 995 2858 2864 70 70 []); (A ">" 996 2864 2865 70 70 [])])] # "type"); (B "variable_declarator" 997 2866 2908 70 70 [(B "identifier" 998 2866 2874 70 70 [] # "name"); (B "assignment_operator" 999 2875 2876 70 70 [(A "=" 1000 2875 2876 70 70 [])]); (B "array_creation_expression" 1001 2877 2908 70 70 [(A "new" 1002 2877 2880 70 70 []); (B "generic_type" 1003 2881 2893 70 70 [(B "type_identifier" 1004 2881 2885 70 70 []); (B "type_arguments" 1005 2885 2893 70 70 [(A "<" 1006 2885 2886 70 70 []); (B "type_identifier" 1007 2886 2892 70 70 []); (A ">" 1008 2892 2893 70 70 [])])] # "type"); (B "array_initializer" 1009 2893 2908 70 70 [(A "{" 1010 2893 2894 70 70 []); (B "string_literal" 1011 2894 2898 70 70 []); (A "," 1012 2898 2899 70 70 []); (B "string_literal" 1013 2900 2907 70 70 []); (A "}" 1014 2907 2908 70 70 [])] # "value")] # "value")] # "declarator"); (A ";" 1015 2908 2909 70 70 [])]); (B "expression_statement" 1016 2914 2962 71 71 [(B "assignment_expression" 1017 2914 2961 71 71 [(B "identifier" 1018 2914 2926 71 71 [] # "left"); (B "assignment_operator" 1019 2927 2928 71 71 [(A "=" 1020 2927 2928 71 71 [])] # "operator"); (B "query_expression" 1021 2929 2961 71 71 [(A "[" 1022 2929 2930 71 71 []); (B "sosl_query_body" 1023 2930 2960 71 71 [(B "find_clause" 1024 2930 2942 71 71 [(A "FIND" 1025 2930 2934 71 71 []); (A "'" 1026 2935 2936 71 71 []); (B "term" 1027 2936 2941 71 71 []); (A "'" 1028 2941 2942 71 71 [])]); (B "returning_clause" 1029 2943 2960 71 71 [(A "RETURNING" 1030 2943 2952 71 71 []); (B "sobject_return" 1031 2953 2960 71 71 [(B "identifier" 1032 2953 2960 71 71 [])])])]); (A "]" 1033 2960 2961 71 71 [])] # "right")]); (A ";" 1034 2961 2962 71 71 [])]); (B "expression_statement" 1035 2967 3021 72 72 [(B "assignment_expression" 1036 2967 3020 72 72 [(B "identifier" 1037 2967 2979 72 72 [] # "left"); (B "assignment_operator" 1038 2980 2981 72 72 [(A "=" 1039 2980 2981 72 72 [])] # "operator"); (B "query_expression" 1040 2982 3020 72 72 [(A "[" 1041 2982 2983 72 72 []); (B "sosl_query_body" 1042 2983 3019 72 72 [(B "find_clause" 1043 2983 2995 72 72 [(A "FIND" 1044 2983 2987 72 72 []); (A "'" 1045 2988 2989 72 72 []); (B "term" 1046 2989 2994 72 72 []); (A "'" 1047 2994 2995 72 72 [])]); (B "returning_clause" 1048 2996 3019 72 72 [(A "RETURNING" 1049 2996 3005 72 72 []); (B "sobject_return" 1050 3006 3013 72 72 [(B "identifier" 1051 3006 3013 72 72 [])]); (A "," 1052 3013 3014 72 72 []); (B "sobject_return" 1053 3015 3019 72 72 [(B "identifier" 1054 3015 3019 72 72 [])])])]); (A "]" 1055 3019 3020 72 72 [])] # "right")]); (A ";" 1056 3020 3021 72 72 [])]); (B "expression_statement" 1057 3026 3080 73 73 [(B "assignment_expression" 1058 3026 3079 73 73 [(B "identifier" 1059 3026 3038 73 73 [] # "left"); (B "assignment_operator" 1060 3039 3040 73 73 [(A "=" 1061 3039 3040 73 73 [])] # "operator"); (B "query_expression" 1062 3041 3079 73 73 [(A "[" 1063 3041 3042 73 73 []); (B "sosl_query_body" 1064 3042 3078 73 73 [(B "find_clause" 1065 3042 3054 73 73 [(A "FIND" 1066 3042 3046 73 73 []); (A "'" 1067 3047 3048 73 73 []); (B "term" 1068 3048 3053 73 73 []); (A "'" 1069 3053 3054 73 73 [])]); (B "returning_clause" 1070 3055 3078 73 73 [(A "RETURNING" 1071 3055 3064 73 73 []); (B "sobject_return" 1072 3065 3078 73 73 [(B "identifier" 1073 3065 3072 73 73 []); (A "(" 1074 3072 3073 73 73 []); (B "selected_fields" 1075 3073 3077 73 73 [(B "field_identifier" 1076 3073 3077 73 73 [(B "identifier" 1077 3073 3077 73 73 [])])]); (A ")" 1078 3077 3078 73 73 [])])])]); (A "]" 1079 3078 3079 73 73 [])] # "right")]); (A ";" 1080 3079 3080 73 73 [])]); (B "expression_statement" 1081 3085 3154 74 74 [(B "assignment_expression" 1082 3085 3153 74 74 [(B "identifier" 1083 3085 3097 74 74 [] # "left"); (B "assignment_operator" 1084 3098 3099 74 74 [(A "=" 1085 3098 3099 74 74 [])] # "operator"); (B "query_expression" 1086 3100 3153 74 74 [(A "[" 1087 3100 3101 74 74 []); (B "sosl_query_body" 1088 3101 3152 74 74 [(B "find_clause" 1089 3101 3113 74 74 [(A "FIND" 1090 3101 3105 74 74 []); (A "'" 1091 3106 3107 74 74 []); (B "term" 1092 3107 3112 74 74 []); (A "'" 1093 3112 3113 74 74 [])]); (B "returning_clause" 1094 3114 3152 74 74 [(A "RETURNING" 1095 3114 3123 74 74 []); (B "sobject_return" 1096 3124 3152 74 74 [(B "identifier" 1097 3124 3131 74 74 []); (A "(" 1098 3131 3132 74 74 []); (B "selected_fields" 1099 3132 3151 74 74 [(B "field_identifier" 1100 3132 3141 74 74 [(B "identifier" 1101 3132 3141 74 74 [])]); (A "," 1102 3141 3142 74 74 []); (B "field_identifier" 1103 3143 3151 74 74 [(B "identifier" 1104 3143 3151 74 74 [])])]); (A ")" 1105 3151 3152 74 74 [])])])]); (A "]" 1106 3152 3153 74 74 [])] # "right")]); (A ";" 1107 3153 3154 74 74 [])]); (B "expression_statement" 1108 3159 3231 75 75 [(B "assignment_expression" 1109 3159 3230 75 75 [(B "identifier" 1110 3159 3171 75 75 [] # "left"); (B "assignment_operator" 1111 3172 3173 75 75 [(A "=" 1112 3172 3173 75 75 [])] # "operator"); (B "query_expression" 1113 3174 3230 75 75 [(A "[" 1114 3174 3175 75 75 []); (B "sosl_query_body" 1115 3175 3229 75 75 [(B "find_clause" 1116 3175 3187 75 75 [(A "FIND" 1117 3175 3179 75 75 []); (A "'" 1118 3180 3181 75 75 []); (B "term" 1119 3181 3186 75 75 []); (A "'" 1120 3186 3187 75 75 [])]); (B "returning_clause" 1121 3188 3229 75 75 [(A "RETURNING" 1122 3188 3197 75 75 []); (B "sobject_return" 1123 3198 3229 75 75 [(B "identifier" 1124 3198 3213 75 75 []); (A "(" 1125 3213 3214 75 75 []); (B "selected_fields" 1126 3214 3228 75 75 [(B "field_identifier" 1127 3214 3228 75 75 [(B "identifier" 1128 3214 3228 75 75 [])])]); (A ")" 1129 3228 3229 75 75 [])])])]); (A "]" 1130 3229 3230 75 75 [])] # "right")]); (A ";" 1131 3230 3231 75 75 [])]); (B "expression_statement" 1132 3236 3339 76 76 [(B "assignment_expression" 1133 3236 3338 76 76 [(B "identifier" 1134 3236 3248 76 76 [] # "left"); (B "assignment_operator" 1135 3249 3250 76 76 [(A "=" 1136 3249 3250 76 76 [])] # "operator"); (B "query_expression" 1137 3251 3338 76 76 [(A "[" 1138 3251 3252 76 76 []); (B "sosl_query_body" 1139 3252 3337 76 76 [(B "find_clause" 1140 3252 3264 76 76 [(A "FIND" 1141 3252 3256 76 76 []); (A "'" 1142 3257 3258 76 76 []); (B "term" 1143 3258 3263 76 76 []); (A "'" 1144 3263 3264 76 76 [])]); (B "returning_clause" 1145 3265 3337 76 76 [(A "RETURNING" 1146 3265 3274 76 76 []); (B "sobject_return" 1147 3275 3312 76 76 [(B "identifier" 1148 3275 3282 76 76 []); (A "(" 1149 3282 3283 76 76 []); (B "selected_fields" 1150 3283 3302 76 76 [(B "field_identifier" 1151 3283 3292 76 76 [(B "identifier" 1152 3283 3292 76 76 [])]); (A "," 1153 3292 3293 76 76 []); (B "field_identifier" 1154 3294 3302 76 76 [(B "identifier" 1155 3294 3302 76 76 [])])]); (B "limit_clause" 1156 3303 3311 76 76 [(A "LIMIT" 1157 3303 3308 76 76 []); (B "int" 1158 3309 3311 76 76 [])]); (A ")" 1159 3311 3312 76 76 [])]); (A "," 1160 3312 3313 76 76 []); (B "sobject_return" 1161 3314 3337 76 76 [(B "identifier" 1162 3314 3321 76 76 []); (A "(" 1163 3321 3322 76 76 []); (B "selected_fields" 1164 3322 3336 76 76 [(B "field_identifier" 1165 3322 3326 76 76 [(B "identifier" 1166 3322 3326 76 76 [])]); (A "," 1167 3326 3327 76 76 []); (B "field_identifier" 1168 3328 3336 76 76 [(B "identifier" 1169 3328 3336 76 76 [])])]); (A ")" 1170 3336 3337 76 76 [])])])]); (A "]" 1171 3337 3338 76 76 [])] # "right")]); (A ";" 1172 3338 3339 76 76 [])]); (B "expression_statement" 1173 3344 3461 77 77 [(B "assignment_expression" 1174 3344 3460 77 77 [(B "identifier" 1175 3344 3356 77 77 [] # "left"); (B "assignment_operator" 1176 3357 3358 77 77 [(A "=" 1177 3357 3358 77 77 [])] # "operator"); (B "query_expression" 1178 3359 3460 77 77 [(A "[" 1179 3359 3360 77 77 []); (B "sosl_query_body" 1180 3360 3459 77 77 [(B "find_clause" 1181 3360 3372 77 77 [(A "FIND" 1182 3360 3364 77 77 []); (A "'" 1183 3365 3366 77 77 []); (B "term" 1184 3366 3371 77 77 []); (A "'" 1185 3371 3372 77 77 [])]); (B "returning_clause" 1186 3373 3459 77 77 [(A "RETURNING" 1187 3373 3382 77 77 []); (B "sobject_return" 1188 3383 3433 77 77 [(B "identifier" 1189 3383 3390 77 77 []); (A "(" 1190 3390 3391 77 77 []); (B "selected_fields" 1191 3391 3410 77 77 [(B "field_identifier" 1192 3391 3400 77 77 [(B "identifier" 1193 3391 3400 77 77 [])]); (A "," 1194 3400 3401 77 77 []); (B "field_identifier" 1195 3402 3410 77 77 [(B "identifier" 1196 3402 3410 77 77 [])])]); (B "order_by_clause" 1197 3411 3432 77 77 [(A "ORDER" 1198 3411 3416 77 77 []); (A "BY" 1199 3417 3419 77 77 []); (B "order_expression" 1200 3420 3432 77 77 [(B "field_identifier" 1201 3420 3428 77 77 [(B "identifier" 1202 3420 3428 77 77 [])]); (B "order_direction" 1203 3429 3432 77 77 [(A "ASC" 1204 3429 3432 77 77 [])])])]); (A ")" 1205 3432 3433 77 77 [])]); (A "," 1206 3433 3434 77 77 []); (B "sobject_return" 1207 3435 3442 77 77 [(B "identifier" 1208 3435 3442 77 77 [])]); (A "," 1209 3442 3443 77 77 []); (B "sobject_return" 1210 3444 3459 77 77 [(B "identifier" 1211 3444 3448 77 77 []); (A "(" 1212 3448 3449 77 77 []); (B "selected_fields" 1213 3449 3458 77 77 [(B "field_identifier" 1214 3449 3458 77 77 [(B "identifier" 1215 3449 3458 77 77 [])])]); (A ")" 1216 3458 3459 77 77 [])])])]); (A "]" 1217 3459 3460 77 77 [])] # "right")]); (A ";" 1218 3460 3461 77 77 [])]); (B "expression_statement" 1219 3466 3623 78 78 [(B "assignment_expression" 1220 3466 3622 78 78 [(B "identifier" 1221 3466 3478 78 78 [] # "left"); (B "assignment_operator" 1222 3479 3480 78 78 [(A "=" 1223 3479 3480 78 78 [])] # "operator"); (B "query_expression" 1224 3481 3622 78 78 [(A "[" 1225 3481 3482 78 78 []); (B "sosl_query_body" 1226 3482 3621 78 78 [(B "find_clause" 1227 3482 3494 78 78 [(A "FIND" 1228 3482 3486 78 78 []); (A "'" 1229 3487 3488 78 78 []); (B "term" 1230 3488 3493 78 78 []); (A "'" 1231 3493 3494 78 78 [])]); (B "returning_clause" 1232 3495 3612 78 78 [(A "RETURNING" 1233 3495 3504 78 78 []); (B "sobject_return" 1234 3505 3565 78 78 [(B "identifier" 1235 3505 3512 78 78 []); (A "(" 1236 3512 3513 78 78 []); (B "selected_fields" 1237 3513 3532 78 78 [(B "field_identifier" 1238 3513 3522 78 78 [(B "identifier" 1239 3513 3522 78 78 [])]); (A "," 1240 3522 3523 78 78 []); (B "field_identifier" 1241 3524 3532 78 78 [(B "identifier" 1242 3524 3532 78 78 [])])]); (B "order_by_clause" 1243 3533 3555 78 78 [(A "ORDER" 1244 3533 3538 78 78 []); (A "BY" 1245 3539 3541 78 78 []); (B "order_expression" 1246 3542 3555 78 78 [(B "field_identifier" 1247 3542 3550 78 78 [(B "identifier" 1248 3542 3550 78 78 [])]); (B "order_direction" 1249 3551 3555 78 78 [(A "DESC" 1250 3551 3555 78 78 [])])])]); (B "limit_clause" 1251 3556 3564 78 78 [(A "LIMIT" 1252 3556 3561 78 78 []); (B "int" 1253 3562 3564 78 78 [])]); (A ")" 1254 3564 3565 78 78 [])]); (A "," 1255 3565 3566 78 78 []); (B "sobject_return" 1256 3567 3599 78 78 [(B "identifier" 1257 3567 3574 78 78 []); (A "(" 1258 3574 3575 78 78 []); (B "selected_fields" 1259 3575 3589 78 78 [(B "field_identifier" 1260 3575 3579 78 78 [(B "identifier" 1261 3575 3579 78 78 [])]); (A "," 1262 3579 3580 78 78 []); (B "field_identifier" 1263 3581 3589 78 78 [(B "identifier" 1264 3581 3589 78 78 [])])]); (B "limit_clause" 1265 3590 3598 78 78 [(A "LIMIT" 1266 3590 3595 78 78 []); (B "int" 1267 3596 3598 78 78 [])]); (A ")" 1268 3598 3599 78 78 [])]); (A "," 1269 3599 3600 78 78 []); (B "sobject_return" 1270 3601 3612 78 78 [(B "identifier" 1271 3601 3612 78 78 [])])]); (B "limit_clause" 1272 3613 3621 78 78 [(A "LIMIT" 1273 3613 3618 78 78 []); (B "int" 1274 3619 3621 78 78 [])])]); (A "]" 1275 3621 3622 78 78 [])] # "right")]); (A ";" 1276 3622 3623 78 78 [])]); (B "expression_statement" 1277 3628 3707 79 79 [(B "assignment_expression" 1278 3628 3706 79 79 [(B "identifier" 1279 3628 3640 79 79 [] # "left"); (B "assignment_operator" 1280 3641 3642 79 79 [(A "=" 1281 3641 3642 79 79 [])] # "operator"); (B "query_expression" 1282 3643 3706 79 79 [(A "[" 1283 3643 3644 79 79 []); (B "sosl_query_body" 1284 3644 3705 79 79 [(B "find_clause" 1285 3644 3656 79 79 [(A "FIND" 1286 3644 3648 79 79 []); (A "'" 1287 3649 3650 79 79 []); (B "term" 1288 3650 3655 79 79 []); (A "'" 1289 3655 3656 79 79 [])]); (B "returning_clause" 1290 3657 3705 79 79 [(A "RETURNING" 1291 3657 3666 79 79 []); (B "sobject_return" 1292 3667 3705 79 79 [(B "identifier" 1293 3667 3674 79 79 []); (A "(" 1294 3674 3675 79 79 []); (B "selected_fields" 1295 3675 3694 79 79 [(B "field_identifier" 1296 3675 3684 79 79 [(B "identifier" 1297 3675 3684 79 79 [])]); (A "," 1298 3684 3685 79 79 []); (B "field_identifier" 1299 3686 3694 79 79 [(B "identifier" 1300 3686 3694 79 79 [])])]); (B "offset_clause" 1301 3695 3704 79 79 [(A "OFFSET" 1302 3695 3701 79 79 []); (B "int" 1303 3702 3704 79 79 [])]); (A ")" 1304 3704 3705 79 79 [])])])]); (A "]" 1305 3705 3706 79 79 [])] # "right")]); (A ";" 1306 3706 3707 79 79 [])]); (B "expression_statement" 1307 3712 3812 80 80 [(B "assignment_expression" 1308 3712 3811 80 80 [(B "identifier" 1309 3712 3724 80 80 [] # "left"); (B "assignment_operator" 1310 3725 3726 80 80 [(A "=" 1311 3725 3726 80 80 [])] # "operator"); (B "query_expression" 1312 3727 3811 80 80 [(A "[" 1313 3727 3728 80 80 []); (B "sosl_query_body" 1314 3728 3810 80 80 [(B "find_clause" 1315 3728 3740 80 80 [(A "FIND" 1316 3728 3732 80 80 []); (A "'" 1317 3733 3734 80 80 []); (B "term" 1318 3734 3739 80 80 []); (A "'" 1319 3739 3740 80 80 [])]); (B "in_clause" 1320 3741 3754 80 80 [(A "IN" 1321 3741 3743 80 80 []); (B "in_type" 1322 3744 3747 80 80 [(A "ALL" 1323 3744 3747 80 80 [])]); (A "FIELDS" 1324 3748 3754 80 80 [])]); (B "returning_clause" 1325 3755 3810 80 80 [(A "RETURNING" 1326 3755 3764 80 80 []); (B "sobject_return" 1327 3765 3810 80 80 [(B "identifier" 1328 3765 3772 80 80 []); (A "(" 1329 3772 3773 80 80 []); (B "selected_fields" 1330 3773 3781 80 80 [(B "field_identifier" 1331 3773 3775 80 80 [(B "identifier" 1332 3773 3775 80 80 [])]); (A "," 1333 3775 3776 80 80 []); (B "field_identifier" 1334 3777 3781 80 80 [(B "identifier" 1335 3777 3781 80 80 [])])]); (B "using_clause" 1336 3782 3809 80 80 [(A "USING" 1337 3782 3787 80 80 []); (B "using_listview_clause" 1338 3788 3809 80 80 [(A "LISTVIEW" 1339 3788 3796 80 80 []); (A "=" 1340 3796 3797 80 80 []); (B "identifier" 1341 3797 3809 80 80 [])])]); (A ")" 1342 3809 3810 80 80 [])])])]); (A "]" 1343 3810 3811 80 80 [])] # "right")]); (A ";" 1344 3811 3812 80 80 [])]); (B "expression_statement" 1345 3817 3909 81 81 [(B "assignment_expression" 1346 3817 3908 81 81 [(B "identifier" 1347 3817 3829 81 81 [] # "left"); (B "assignment_operator" 1348 3830 3831 81 81 [(A "=" 1349 3830 3831 81 81 [])] # "operator"); (B "query_expression" 1350 3832 3908 81 81 [(A "[" 1351 3832 3833 81 81 []); (B "sosl_query_body" 1352 3833 3907 81 81 [(B "find_clause" 1353 3833 3844 81 81 [(A "FIND" 1354 3833 3837 81 81 []); (A "'" 1355 3838 3839 81 81 []); (B "term" 1356 3839 3843 81 81 []); (A "'" 1357 3843 3844 81 81 [])]); (B "returning_clause" 1358 3845 3907 81 81 [(A "RETURNING" 1359 3845 3854 81 81 []); (B "sobject_return" 1360 3855 3907 81 81 [(B "identifier" 1361 3855 3862 81 81 []); (A "(" 1362 3863 3864 81 81 []); (B "selected_fields" 1363 3864 3866 81 81 [(B "field_identifier" 1364 3864 3866 81 81 [(B "identifier" 1365 3864 3866 81 81 [])])]); (B "where_clause" 1366 3867 3906 81 81 [(A "WHERE" 1367 3867 3872 81 81 []); (B "comparison_expression" 1368 3873 3906 81 81 [(B "field_identifier" 1369 3873 3884 81 81 [(B "identifier" 1370 3873 3884 81 81 [])]); (B "value_comparison_operator" 1371 3885 3886 81 81 [(A "=" 1372 3885 3886 81 81 [])]); (B "date_literal" 1373 3887 3906 81 81 [])])]); (A ")" 1374 3906 3907 81 81 [])])])]); (A "]" 1375 3907 3908 81 81 [])] # "right")]); (A ";" 1376 3908 3909 81 81 [])]); (B "expression_statement" 1377 3914 3988 82 82 [(B "assignment_expression" 1378 3914 3987 82 82 [(B "identifier" 1379 3914 3926 82 82 [] # "left"); (B "assignment_operator" 1380 3927 3928 82 82 [(A "=" 1381 3927 3928 82 82 [])] # "operator"); (B "query_expression" 1382 3929 3987 82 82 [(A "[" 1383 3929 3930 82 82 []); (B "sosl_query_body" 1384 3930 3986 82 82 [(B "find_clause" 1385 3930 3941 82 82 [(A "FIND" 1386 3930 3934 82 82 []); (A "'" 1387 3935 3936 82 82 []); (B "term" 1388 3936 3940 82 82 []); (A "'" 1389 3940 3941 82 82 [])]); (B "returning_clause" 1390 3942 3986 82 82 [(A "RETURNING" 1391 3942 3951 82 82 []); (B "sobject_return" 1392 3952 3986 82 82 [(B "identifier" 1393 3952 3959 82 82 []); (A "(" 1394 3960 3961 82 82 []); (B "selected_fields" 1395 3961 3969 82 82 [(B "field_identifier" 1396 3961 3963 82 82 [(B "identifier" 1397 3961 3963 82 82 [])]); (A "," 1398 3963 3964 82 82 []); (B "field_identifier" 1399 3965 3969 82 82 [(B "identifier" 1400 3965 3969 82 82 [])])]); (B "where_clause" 1401 3970 3985 82 82 [(A "WHERE" 1402 3970 3975 82 82 []); (B "comparison_expression" 1403 3976 3985 82 82 [(B "field_identifier" 1404 3976 3980 82 82 [(B "identifier" 1405 3976 3980 82 82 [])]); (B "value_comparison_operator" 1406 3981 3982 82 82 [(A "=" 1407 3981 3982 82 82 [])]); (B "bound_apex_expression" 1408 3983 3985 82 82 [(A ":" 1409 3983 3984 82 82 []); (B "identifier" 1410 3984 3985 82 82 [])])])]); (A ")" 1411 3985 3986 82 82 [])])])]); (A "]" 1412 3986 3987 82 82 [])] # "right")]); (A ";" 1413 3987 3988 82 82 [])]); (B "expression_statement" 1414 3993 4069 83 83 [(B "assignment_expression" 1415 3993 4068 83 83 [(B "identifier" 1416 3993 4005 83 83 [] # "left"); (B "assignment_operator" 1417 4006 4007 83 83 [(A "=" 1418 4006 4007 83 83 [])] # "operator"); (B "query_expression" 1419 4008 4068 83 83 [(A "[" 1420 4008 4009 83 83 []); (B "sosl_query_body" 1421 4009 4067 83 83 [(B "find_clause" 1422 4009 4020 83 83 [(A "FIND" 1423 4009 4013 83 83 []); (A "'" 1424 4014 4015 83 83 []); (B "term" 1425 4015 4019 83 83 []); (A "'" 1426 4019 4020 83 83 [])]); (B "returning_clause" 1427 4021 4067 83 83 [(A "RETURNING" 1428 4021 4030 83 83 []); (B "sobject_return" 1429 4031 4067 83 83 [(B "identifier" 1430 4031 4038 83 83 []); (A "(" 1431 4039 4040 83 83 []); (B "selected_fields" 1432 4040 4042 83 83 [(B "field_identifier" 1433 4040 4042 83 83 [(B "identifier" 1434 4040 4042 83 83 [])])]); (B "where_clause" 1435 4043 4066 83 83 [(A "WHERE" 1436 4043 4048 83 83 []); (B "comparison_expression" 1437 4049 4066 83 83 [(B "field_identifier" 1438 4049 4053 83 83 [(B "identifier" 1439 4049 4053 83 83 [])]); (B "set_comparison_operator" 1440 4054 4056 83 83 [(A "IN" 1441 4054 4056 83 83 [])]); (B "bound_apex_expression" 1442 4057 4066 83 83 [(A ":" 1443 4057 4058 83 83 []); (B "identifier" 1444 4058 4066 83 83 [])])])]); (A ")" 1445 4066 4067 83 83 [])])])]); (A "]" 1446 4067 4068 83 83 [])] # "right")]); (A ";" 1447 4068 4069 83 83 [])]); (B "expression_statement" 1448 4074 4227 84 86 [(B "assignment_expression" 1449 4074 4226 84 86 [(B "identifier" 1450 4074 4086 84 84 [] # "left"); (B "assignment_operator" 1451 4087 4088 84 84 [(A "=" 1452 4087 4088 84 84 [])] # "operator"); (B "query_expression" 1453 4089 4226 84 86 [(A "[" 1454 4089 4090 84 84 []); (B "sosl_query_body" 1455 4090 4225 84 86 [(B "find_clause" 1456 4090 4110 84 84 [(A "FIND" 1457 4090 4094 84 84 []); (A "'" 1458 4095 4096 84 84 []); (B "term" 1459 4096 4109 84 84 []); (A "'" 1460 4109 4110 84 84 [])]); (B "returning_clause" 1461 4117 4225 85 86 [(A "RETURNING" 1462 4117 4126 85 85 []); (B "sobject_return" 1463 4127 4225 85 86 [(B "identifier" 1464 4127 4146 85 85 []); (A "(" 1465 4147 4148 85 85 []); (B "selected_fields" 1466 4148 4150 85 85 [(B "field_identifier" 1467 4148 4150 85 85 [(B "identifier" 1468 4148 4150 85 85 [])])]); (B "where_clause" 1469 4157 4224 86 86 [(A "WHERE" 1470 4157 4162 86 86 []); (B "comparison_expression" 1471 4163 4224 86 86 [(B "function_expression" 1472 4163 4218 86 86 [(B "identifier" 1473 4163 4171 86 86 [] # "function_name"); (A "(" 1474 4171 4172 86 86 []); (B "field_identifier" 1475 4172 4192 86 86 [(B "identifier" 1476 4172 4192 86 86 [])]); (A "," 1477 4192 4193 86 86 []); (B "geo_location_type" 1478 4193 4212 86 86 [(B "identifier" 1479 4193 4204 86 86 []); (A "(" 1480 4204 4205 86 86 []); (B "decimal" 1481 4205 4207 86 86 []); (A "," 1482 4207 4208 86 86 []); (B "decimal" 1483 4208 4211 86 86 []); (A ")" 1484 4211 4212 86 86 [])]); (A "," 1485 4212 4213 86 86 []); (B "string_literal" 1486 4213 4217 86 86 []); (A ")" 1487 4217 4218 86 86 [])]); (B "value_comparison_operator" 1488 4219 4220 86 86 [(A "<" 1489 4219 4220 86 86 [])]); (B "int" 1490 4221 4224 86 86 [])])]); (A ")" 1491 4224 4225 86 86 [])])])]); (A "]" 1492 4225 4226 86 86 [])] # "right")]); (A ";" 1493 4226 4227 86 86 [])]); (A "}" 1494 4230 4231 87 87 [])] # "body")]); (B "method_declaration" 1495 4234 4808 88 101 [(B "void_type" 1496 4234 4238 88 88 [] # "type"); (B "identifier" 1497 4239 4249 88 88 [] # "name"); (B "formal_parameters" 1498 4249 4251 88 88 [(A "(" 1499 4249 4250 88 88 []); (A ")" 1500 4250 4251 88 88 [])] # "parameters"); (B "block" 1501 4252 4808 88 101 [(A "{" 1502 4252 4253 88 88 []); (B "local_variable_declaration" 1503 4258 4290 89 89 [(B "generic_type" 1504 4258 4276 89 89 [(B "type_identifier" 1505 4258 4262 89 89 []); (B "type_arguments" 1506 4262 4276 89 89 [(A "<" 1507 4262 4263 89 89 []); (B "generic_type" 1508 4263 4275 89 89 [(B "type_identifier" 1509 4263 4267 89 89 []); (B "type_arguments" 1510 4267 4275 89 89 [(A "<" 1511 4267 4268 89 89 []); (B "type_identifier" 1512 4268 4274 89 89 []); (A ">" 1513 4274 4275 89 89 [])])]); (A ">" 1514 4275 4276 89 89 [])])] # "type"); (B "variable_declarator" 1515 4277 4289 89 89 [(B "identifier" 1516 4277 4289 89 89 [] # "name")] # "declarator"); (A ";" 1517 4289 4290 89 89 [])]); (B "expression_statement" 1518 4295 4484 90 94 [(B "assignment_expression" 1519 4295 4483 90 94 [(B "identifier" 1520 4295 4307 90 90 [] # "left"); (B "assignment_operator" 1521 4308 4309 90 90 [(A "=" 1522 4308 4309 90 90 [])] # "operator"); (B "query_expression" 1523 4310 4483 90 94 [(A "[" 1524 4310 4311 90 90 []); (B "sosl_query_body" 1525 4311 4482 90 94 [(B "find_clause" 1526 4311 4323 90 90 [(A "FIND" 1527 4311 4315 90 90 []); (A "'" 1528 4316 4317 90 90 []); (B "term" 1529 4317 4322 90 90 []); (A "'" 1530 4322 4323 90 90 [])]); (B "returning_clause" 1531 4330 4462 91 93 [(A "RETURNING" 1532 4330 4339 91 91 []); (B "sobject_return" 1533 4340 4462 91 93 [(B "identifier" 1534 4340 4348 91 91 []); (A "(" 1535 4349 4350 91 91 []); (B "selected_fields" 1536 4350 4355 91 91 [(B "field_identifier" 1537 4350 4355 91 91 [(B "identifier" 1538 4350 4355 91 91 [])])]); (B "where_clause" 1539 4356 4461 91 93 [(A "WHERE" 1540 4356 4361 91 91 []); (B "and_expression" 1541 4362 4461 91 93 [(B "comparison_expression" 1542 4362 4384 91 91 [(B "field_identifier" 1543 4362 4375 91 91 [(B "identifier" 1544 4362 4375 91 91 [])]); (B "value_comparison_operator" 1545 4375 4376 91 91 [(A "=" 1546 4375 4376 91 91 [])]); (B "string_literal" 1547 4376 4384 91 91 [])]); (A "AND" 1548 4385 4388 91 91 []); (B "comparison_expression" 1549 4393 4409 92 92 [(B "field_identifier" 1550 4393 4401 92 92 [(B "identifier" 1551 4393 4401 92 92 [])]); (B "value_comparison_operator" 1552 4401 4402 92 92 [(A "=" 1553 4401 4402 92 92 [])]); (B "string_literal" 1554 4402 4409 92 92 [])]); (A "AND" 1555 4410 4413 92 92 []); (B "comparison_expression" 1556 4418 4461 93 93 [(B "field_identifier" 1557 4418 4441 93 93 [(B "identifier" 1558 4418 4441 93 93 [])]); (B "value_comparison_operator" 1559 4442 4443 93 93 [(A "=" 1560 4442 4443 93 93 [])]); (B "string_literal" 1561 4444 4461 93 93 [])])])]); (A ")" 1562 4461 4462 93 93 [])])]); (B "update_clause" 1563 4467 4482 94 94 [(A "UPDATE" 1564 4467 4473 94 94 []); (B "update_type" 1565 4474 4482 94 94 [(A "VIEWSTAT" 1566 4474 4482 94 94 [])])])]); (A "]" 1567 4482 4483 94 94 [])] # "right")]); (A ";" 1568 4483 4484 94 94 [])]); (B "expression_statement" 1569 4489 4639 95 97 [(B "assignment_expression" 1570 4489 4638 95 97 [(B "identifier" 1571 4489 4501 95 95 [] # "left"); (B "assignment_operator" 1572 4502 4503 95 95 [(A "=" 1573 4502 4503 95 95 [])] # "operator"); (B "query_expression" 1574 4504 4638 95 97 [(A "[" 1575 4504 4505 95 95 []); (B "sosl_query_body" 1576 4505 4637 95 97 [(B "find_clause" 1577 4505 4519 95 95 [(A "FIND" 1578 4505 4509 95 95 []); (A "'" 1579 4510 4511 95 95 []); (B "term" 1580 4511 4518 95 95 []); (A "'" 1581 4518 4519 95 95 [])]); (B "returning_clause" 1582 4526 4617 96 96 [(A "RETURNING" 1583 4526 4535 96 96 []); (B "sobject_return" 1584 4536 4617 96 96 [(B "identifier" 1585 4536 4559 96 96 []); (A "(" 1586 4560 4561 96 96 []); (B "selected_fields" 1587 4561 4566 96 96 [(B "field_identifier" 1588 4561 4566 96 96 [(B "identifier" 1589 4561 4566 96 96 [])])]); (B "where_clause" 1590 4567 4616 96 96 [(A "WHERE" 1591 4567 4572 96 96 []); (B "and_expression" 1592 4573 4616 96 96 [(B "comparison_expression" 1593 4573 4595 96 96 [(B "field_identifier" 1594 4573 4586 96 96 [(B "identifier" 1595 4573 4586 96 96 [])]); (B "value_comparison_operator" 1596 4586 4587 96 96 [(A "=" 1597 4586 4587 96 96 [])]); (B "string_literal" 1598 4587 4595 96 96 [])]); (A "AND" 1599 4596 4599 96 96 []); (B "comparison_expression" 1600 4600 4616 96 96 [(B "field_identifier" 1601 4600 4608 96 96 [(B "identifier" 1602 4600 4608 96 96 [])]); (B "value_comparison_operator" 1603 4608 4609 96 96 [(A "=" 1604 4608 4609 96 96 [])]); (B "string_literal" 1605 4609 4616 96 96 [])])])]); (A ")" 1606 4616 4617 96 96 [])])]); (B "update_clause" 1607 4622 4637 97 97 [(A "UPDATE" 1608 4622 4628 97 97 []); (B "update_type" 1609 4629 4637 97 97 [(A "TRACKING" 1610 4629 4637 97 97 [])])])]); (A "]" 1611 4637 4638 97 97 [])] # "right")]); (A ";" 1612 4638 4639 97 97 [])]); (B "expression_statement" 1613 4644 4804 98 100 [(B "assignment_expression" 1614 4644 4803 98 100 [(B "identifier" 1615 4644 4656 98 98 [] # "left"); (B "assignment_operator" 1616 4657 4658 98 98 [(A "=" 1617 4657 4658 98 98 [])] # "operator"); (B "query_expression" 1618 4659 4803 98 100 [(A "[" 1619 4659 4660 98 98 []); (B "sosl_query_body" 1620 4660 4802 98 100 [(B "find_clause" 1621 4660 4674 98 98 [(A "FIND" 1622 4660 4664 98 98 []); (A "'" 1623 4665 4666 98 98 []); (B "term" 1624 4666 4673 98 98 []); (A "'" 1625 4673 4674 98 98 [])]); (B "returning_clause" 1626 4681 4772 99 99 [(A "RETURNING" 1627 4681 4690 99 99 []); (B "sobject_return" 1628 4691 4772 99 99 [(B "identifier" 1629 4691 4714 99 99 []); (A "(" 1630 4715 4716 99 99 []); (B "selected_fields" 1631 4716 4721 99 99 [(B "field_identifier" 1632 4716 4721 99 99 [(B "identifier" 1633 4716 4721 99 99 [])])]); (B "where_clause" 1634 4722 4771 99 99 [(A "WHERE" 1635 4722 4727 99 99 []); (B "and_expression" 1636 4728 4771 99 99 [(B "comparison_expression" 1637 4728 4750 99 99 [(B "field_identifier" 1638 4728 4741 99 99 [(B "identifier" 1639 4728 4741 99 99 [])]); (B "value_comparison_operator" 1640 4741 4742 99 99 [(A "=" 1641 4741 4742 99 99 [])]); (B "string_literal" 1642 4742 4750 99 99 [])]); (A "AND" 1643 4751 4754 99 99 []); (B "comparison_expression" 1644 4755 4771 99 99 [(B "field_identifier" 1645 4755 4763 99 99 [(B "identifier" 1646 4755 4763 99 99 [])]); (B "value_comparison_operator" 1647 4763 4764 99 99 [(A "=" 1648 4763 4764 99 99 [])]); (B "string_literal" 1649 4764 4771 99 99 [])])])]); (A ")" 1650 4771 4772 99 99 [])])]); (B "update_clause" 1651 4777 4802 100 100 [(A "UPDATE" 1652 4777 4783 100 100 []); (B "update_type" 1653 4784 4792 100 100 [(A "TRACKING" 1654 4784 4792 100 100 [])]); (A "," 1655 4792 4793 100 100 []); (B "update_type" 1656 4794 4802 100 100 [(A "VIEWSTAT" 1657 4794 4802 100 100 [])])])]); (A "]" 1658 4802 4803 100 100 [])] # "right")]); (A ";" 1659 4803 4804 100 100 [])]); (A "}" 1660 4807 4808 101 101 [])] # "body")]); (A "}" 1661 4809 4810 102 102 [])] # "body")])]).
Example prettier80_SOSL3 : as_expected prettier80_SOSL3_source prettier80_SOSL3_tree (U "class SOSLClass {
  void simpleSOSL() {
    String a = 'Hello';
    List<List<SObject>> searchResult = [FIND 'FirstLastName'];
    searchResult = [FIND :a];
    searchResult = [FIND :a USING PHRASE SEARCH];
    searchResult = [FIND :a USING ADVANCED SEARCH];
  }

  void hardlineHeuristics() {
    List<List<SObject>> searchResult = [FIND 'FirstLastName'];
    searchResult = [FIND :a USING PHRASE SEARCH];
  }

  void inClause() {
    List<List<SObject>> searchResult;
    searchResult = [FIND 'Hello' IN ALL FIELDS];
    searchResult = [FIND 'Hello' IN EMAIL FIELDS];
    searchResult = [FIND 'Hello' IN NAME FIELDS];
    searchResult = [FIND 'Hello' IN PHONE FIELDS];
    searchResult = [FIND 'Hello' IN SIDEBAR FIELDS];
  }
  void withDivisionClause() {
    List<List<SObject>> searchResult;
    String a = 'Local';
    searchResult = [FIND 'Hello' WITH DIVISION = 'Global'];
    searchResult = [FIND 'Hello' WITH DIVISION = :a];
    searchResult = [FIND 'foobar' RETURNING Account WITH DIVISION = 'global'];
  }
  void withDataCategory() {
    List<List<SObject>> searchResult;
    String a = 'Local';
    searchResult = [FIND 'Hello' WITH DATA CATEGORY Location__c AT America__c];
    searchResult = [
      FIND 'Hello'
      WITH DATA CATEGORY
        Geography__c ABOVE France__c
        AND Product__c AT mobile_phones__c
    ];
    searchResult = [
      FIND 'Hello'
      WITH DATA CATEGORY Geography__c BELOW Europe__c
    ];
  }
  void withSnippet() {
    List<List<SObject>> searchResult;
    String a = 'Local';
    searchResult = [FIND 'Hello' WITH SNIPPET];
    searchResult = [FIND 'Hello' WITH SNIPPET(TARGET_LENGTH = 120)];
  }
  void withNetwork() {
    List<List<SObject>> searchResult;
    searchResult = [FIND 'Hello' WITH NETWORK = 'NetworkId'];
    searchResult = [
      FIND 'Hello'
      WITH NETWORK IN ('NetworkId1', 'NetworkId2', 'NetworkId3')
    ];
    searchResult = [FIND 'Hello' WITH NETWORK = '00000000000000'];
    searchResult = [
      FIND 'Hello'
      WITH NETWORK IN (
        'NetworkId1',
        'NetworkId2',
        'NetworkId3',
        'NetworkId4',
        'NetworkId5',
        'NetworkId6'
      )
    ];
  }
  void withPricebookId() {
    List<List<SObject>> searchResult;
    searchResult = [FIND 'Hello' WITH PriceBookId = '01sxx0000002MffAAE'];
    searchResult = [
      FIND 'Hello'
      WITH PriceBookId = '01sxx0000002MffAAE'
      WITH PriceBookId = '01sxx0000002MffAAE'
      WITH PriceBookId = '01sxx0000002MffAAE'
    ];
  }
  void withMetadata() {
    List<List<SObject>> searchResult;
    searchResult = [FIND 'Hello' WITH METADATA = 'LABELS'];
  }
  void withHighlight() {
    List<List<SObject>> searchResult;
    searchResult = [FIND 'Hello' WITH HIGHLIGHT];
  }
  void withSpellCorrection() {
    List<List<SObject>> searchResult;
    searchResult = [FIND 'Hello' WITH SPELL_CORRECTION = true];
    searchResult = [FIND 'Hello' WITH SPELL_CORRECTION = false];
  }
  void returning() {
    List<List<SObject>> searchResult;
    String a = 'World';
    List<String> multiple = new List<String>{ 'Hi', 'World' };
    searchResult = [FIND 'Hello' RETURNING Contact];
    searchResult = [FIND 'Hello' RETURNING Contact, Lead];
    searchResult = [FIND 'Hello' RETURNING Account(Name)];
    searchResult = [FIND 'Hello' RETURNING Contact(FirstName, LastName)];
    searchResult = [FIND 'Hello' RETURNING CustomObject__c(CustomField__c)];
    searchResult = [
      FIND 'Hello'
      RETURNING Contact(FirstName, LastName LIMIT 10), Account(Name, Industry)
    ];
    searchResult = [
      FIND 'Hello'
      RETURNING
        Contact(FirstName, LastName ORDER BY FistName ASC),
        Account,
        Lead(FirstName)
    ];
    searchResult = [
      FIND 'Hello'
      RETURNING
        Contact(FirstName, LastName ORDER BY LastName DESC LIMIT 20),
        Account(Name, Industry LIMIT 10),
        Opportunity
      LIMIT 50
    ];
    searchResult = [
      FIND 'Hello'
      RETURNING Contact(FirstName, LastName OFFSET 10)
    ];
    searchResult = [
      FIND 'Hello'
      IN ALL FIELDS
      RETURNING Account(Id, Name USING ListView = ListViewName)
    ];
    searchResult = [
      FIND 'test'
      RETURNING Account(id WHERE createddate = THIS_FISCAL_QUARTER)
    ];
    searchResult = [FIND 'test' RETURNING Account(id, Name WHERE Name = :a)];
    searchResult = [FIND 'test' RETURNING Account(id WHERE NAME IN :multiple)];
    searchResult = [
      FIND 'San Francisco'
      RETURNING
        My_Custom_Object__c(
          Id
          WHERE
            DISTANCE(My_Location_Field__c, GEOLOCATION(37, 122), 'mi') < 100)
    ];
  }
  void updateStat() {
    List<List<String>> searchResult;
    searchResult = [
      FIND 'Title'
      RETURNING
        FAQ__kav(
          Title
          WHERE
            PublishStatus = 'Online'
            AND language = 'en_US'
            AND KnowledgeArticleVersion = 'ka230000000PCiy')
      UPDATE VIEWSTAT
    ];
    searchResult = [
      FIND 'Keyword'
      RETURNING
        KnowledgeArticleVersion(
          Title
          WHERE PublishStatus = 'Online' AND language = 'en_US')
      UPDATE TRACKING
    ];
    searchResult = [
      FIND 'Keyword'
      RETURNING
        KnowledgeArticleVersion(
          Title
          WHERE PublishStatus = 'Online' AND language = 'en_US')
      UPDATE TRACKING, VIEWSTAT
    ];
  }
}
").
Proof. apply run_test_ok. vm_compute. reflexivity. Qed.

(* tests/prettier80/SafeNavigationOperator.in *)
Definition prettier80_SafeNavigationOperator_source : ustr := U "class SafeNavigationOperator {
  void simpleOperator() {
    String b = a?.b;
    String c = a[x]?.aMethod().aField;
    String d = a[x].aMethod()?.aField;
    d = (a[x].aMethod())?.aField;
    Integer e = anObject?.anIntegerField;
    String f = [SELECT Name FROM Account WHERE Id = :accId]?.Name;
  }
}
".
Definition prettier80_SafeNavigationOperator_tree : span := (B "parser_output" 1 0 305 0 10 [(B "class_declaration" 2 0 304 0 9 [(A "class" 3 0 5 0 0 []); (B "identifier" 4 6 28 0 0 [] # "name"); (B "class_body" 5 29 304 0 9 [(A "{" 6 29 30 0 0 []); (B "method_declaration" 7 33 302 1 8 [(B "void_type" 8 33 37 1 1 [] # "type"); (B "identifier" 9 38 52 1 1 [] # "name"); (B "formal_parameters" 10 52 54 1 1 [(A "(" 11 52 53 1 1 []); (A ")" 12 53 54 1 1 [])] # "parameters"); (B "block" 13 55 302 1 8 [(A "{" 14 55 56 1 1 []); (B "local_variable_declaration" 15 61 77 2 2 [(B "type_identifier" 16 61 67 2 2 [] # "type"); (B "variable_declarator" 17 68 76 2 2 [(B "identifier" 18 68 69 2 2 [] # "name"); (B "assignment_operator" 19 70 71 2 2 [(A "=" 20 70 71 2 2 [])]); (B "field_access" 21 72 76 2 2 [(B "identifier" 22 72 73 2 2 [] # "object"); (B "safe_navigation_operator" 23 73 75 2 2 [(A "?." 24 73 75 2 2 [])]); (B "identifier" 25 75 76 2 2 [] # "field")] # "value")] # "declarator"); (A ";" 26 76 77 2 2 [])]); (B "local_variable_declaration" 27 82 116 3 3 [(B "type_identifier" 28 82 88 3 3 [] # "type"); (B "variable_declarator" 29 89 115 3 3 [(B "identifier" 30 89 90 3 3 [] # "name"); (B "assignment_operator" 31 91 92 3 3 [(A "=" 32 91 92 3 3 [])]); (B "field_access" 33 93 115 3 3 [(B "method_invocation" 34 93 108 3 3 [(B "array_access" 35 93 97 3 3 [(B "identifier" 36 93 94 3 3 [] # "array"); (A "[" 37 94 95 3 3 []); (B "identifier" 38 95 96 3 3 [] # "index"); (A "]" 39 96 97 3 3 [])] # "object"); (B "safe_navigation_operator" 40 97 99 3 3 [(A "?." 41 97 99 3 3 [])]); (B "identifier" 42 99 106 3 3 [] # "name"); (B "argument_list" 43 106 108 3 3 [(A "(" 44 106 107 3 3 []); (A ")" 45 107 108 3 3 [])] # "arguments")] # "object"); (A "." 46 108 109 3 3 []); (B "identifier" 47 109 115 3 3 [] # "field")] # "value")] # "declarator"); (A ";" 48 115 116 3 3 [])]); (B "local_variable_declaration" 49 121 155 4 4 [(B "type_identifier" 50 121 127 4 4 [] # "type"); (B "variable_declarator" 51 128 154 4 4 [(B "identifier" 52 128 129 4 4 [] # "name"); (B "assignment_operator" 53 130 131 4 4 [(A "=" 54 130 131 4 4 [])]); (B "field_access" 55 132 154 4 4 [(B "method_invocation" 56 132 146 4 4 [(B "array_access" 57 132 136 4 4 [(B "identifier" 58 132 133 4 4 [] # "array"); (A "[" 59 133 134 4 4 []); (B "identifier" 60 134 135 4 4 [] # "index"); (A "]" 61 135 136 4 4 [])] # "object"); (A "." 62 136 137 4 4 []); (B "identifier" 63 137 144 4 4 [] # "name"); (B "argument_list" 64 144 146 4 4 [(A "(" 65 144 145 4 4 []); (A ")" 66 145 146 4 4 [])] # "arguments")] # "object"); (B "safe_navigation_operator" 67 146 148 4 4 [(A "?." 68 146 148 4 4 [])]); (B "identifier" 69 148 154 4 4 [] # "field")] # "value")] # "declarator"); (A ";" 70 154 155 4 4 [])]); (B "expression_statement" 71 160 189 5 5 [(B "assignment_expression" 72 160 188 5 5 [(B "identifier" 73 160 161 5 5 [] # "left"); (B "assignment_operator" 74 162 163 5 5 [(A "=" 75 162 163 5 5 [])] # "operator"); (B "field_access" 76 164 188 5 5 [(B "parenthesized_expression" 77 164 180 5 5 [(A "(" 78 164 165 5 5 []); (B "method_invocation" 79 165 179 5 5 [(B "array_access" 80 165 169 5 5 [(B "identifier" 81 165 166 5 5 [] # "array"); (A "[" 82 166 167 5 5 []); (B "identifier" 83 167 168 5 5 [] # "index"); (A "]" 84 168 169 5 5 [])] # "object"); (A "." 85 169 170 5 5 []); (B "identifier" 86 170 177 5 5 [] # "name"); (B "argument_list" 87 177 179 5 5 [(A "(" 88 177 178 5 5 []); (A ")" 89 178 179 5 5 [])] # "arguments")]); (A ")" 90 179 180 5 5 [])] # "object"); (B "safe_navigation_operator" 91 180 182 5 5 [(A "?." 92 180 182 5 5 [])]); (B "identifier" 93 182 188 5 5 [] # "field")] # "right")]); (A ";" 94 188 189 5 5 [])]); (B "local_variable_declaration" 95 194 231 6 6 [(B "type_identifier" 96 194 201 6 6 [] # "type"); (B "variable_declarator" 97 202 230 6 6 [(B "identifier" 98 202 203 6 6 [] # "name"); (B "assignment_operator" 99 204 205 6 6 [(A "=" 100 204 205 6 6 [])]); (B "field_access" 101 206 230 6 6 [(B "identifier" 102 206 214 6 6 [] # "object"); (B "safe_navigation_operator" 103 214 216 6 6 [(A "?." 104 214 216 6 6 [])]); (B "identifier" 105 216 230 6 6 [] # "field")] # "value")] # "declarator"); (A ";" 106 230 231 6 6 [])]); (B "local_variable_declaration" 107 236 298 7 7 [(B "type_identifier" 108 236 242 7 7 [] # "type"); (B "variable_declarator" 109 243 297 7 7 [(B "identifier" 110 243 244 7 7 [] # "name"); (B "assignment_operator" 111 245 246 7 7 [(A "=" 112 245 246 7 7 [])]); (B "field_access" 113 247 297 7 7 [(B "query_expression" 114 247 291 7 7 [(A "[" 115 247 248 7 7 []); (B "soql_query_body" 116 248 290 7 7 [(B "select_clause" 117 248 259 7 7 [(A "SELECT" 118 248 254 7 7 []); (B "field_identifier" 119 255 259 7 7 [(B "identifier" 120 255 259 7 7 [])])] # "select_clause"); (B "from_clause" 121 260 272 7 7 [(A "FROM" 122 260 264 7 7 []); (B "storage_identifier" 123 265 272 7 7 [(B "identifier" 124 265 272 7 7 [])])] # "from_clause"); (B "where_clause" 125 273 290 7 7 [(A "WHERE" 126 273 278 7 7 []); (B "comparison_expression" 127 279 290 7 7 [(B "field_identifier" 128 279 281 7 7 [(B "identifier" 129 279 281 7 7 [])]); (B "value_comparison_operator" 130 282 283 7 7 [(A "=" 131 282 283 7 7 [])]); (B "bound_apex_expression" 132 284 290 7 7 [(A ":" 133 284 285 7 7 []); (B "identifier" 134 285 290 7 7 [])])])] # "where_clause")]); (A "]" 135 290 291 7 7 [])] # "object"); (B "safe_navigation_operator" 136 291 293 7 7 [(A "?." 137 291 293 7 7 [])]); (B "identifier" 138 293 297 7 7 [] # "field")] # "value")] # "declarator"); (A ";" 139 297 298 7 7 [])]); (A "}" 140 301 302 8 8 [])] # "body")]); (A "}" 141 303 304 9 9 [])] # "body")])]).
Example prettier80_SafeNavigationOperator : as_expected prettier80_SafeNavigationOperator_source prettier80_SafeNavigationOperator_tree (U "class SafeNavigationOperator {
  void simpleOperator() {
    String b = a?.b;
    String c = a[x]?.aMethod().aField;
    String d = a[x].aMethod()?.aField;
    d = (a[x].aMethod())?.aField;
    Integer e = anObject?.anIntegerField;
    String f = [SELECT Name FROM Account WHERE Id = :accId]?.Name;
  }
}
").
Proof. apply run_test_ok. vm_compute. reflexivity. Qed.

(* tests/prettier80/SetterGetter.in *)
Definition prettier80_SetterGetter_source : ustr := U "class A {
  String propertyMemberWithGet { get {} }
  String propertyMemberWithSet { set {} }

  public String propertyMemberWithGetPrivateSet {
    get {
      return 1;
    }
    private set;
  }
  String propertyMemberWithOnlySet {
    set {
      memberThree = value;
    }
  }
  private String privatePropertyMemberWithOnlyGet {
    get {
      return 2;
    }
    }
}
".
Definition prettier80_SetterGetter_tree : span := (B "parser_output" 1 0 374 0 21 [(B "class_declaration" 2 0 373 0 20 [(A "class" 3 0 5 0 0 []); (B "identifier" 4 6 7 0 0 [] # "name"); (B "class_body" 5 8 373 0 20 [(A "{" 6 8 9 0 0 []); (B "field_declaration" 7 12 51 1 1 [(B "type_identifier" 8 12 18 1 1 [] # "type"); (B "variable_declarator" 9 19 40 1 1 [(B "identifier" 10 19 40 1 1 [] # "name")] # "declarator"); (B "accessor_list" 11 41 51 1 1 [(A "{" 12 41 42 1 1 []); (B "accessor_declaration" 13 43 49 1 1 [(A "get" 14 43 46 1 1 [] # "accessor"); (B "block" 15 47 49 1 1 [(A "{" 16 47 48 1 1 []); (A "}" 17 48 49 1 1 [])] # "body")]); (A "}" 18 50 51 1 1 [])])]); (B "field_declaration" 19 54 93 2 2 [(B "type_identifier" 20 54 60 2 2 [] # "type"); (B "variable_declarator" 21 61 82 2 2 [(B "identifier" 22 61 82 2 2 [] # "name")] # "declarator"); (B "accessor_list" 23 83 93 2 2 [(A "{" 24 83 84 2 2 []); (B "accessor_declaration" 25 85 91 2 2 [(A "set" 26 85 88 2 2 [] # "accessor"); (B "block" 27 89 91 2 2 [(A "{" 28 89 90 2 2 []); (A "}" 29 90 91 2 2 [])] # "body")]); (A "}" 30 92 93 2 2 [])])]); (B "field_declaration" 31 97 197 4 9 [(B "modifiers" 32 97 103 4 4 [(B "modifier" 33 97 103 4 4 [(B "public" 34 97 103 4 4 [(A "public" 35 97 103 4 4 [])])])]); (B "type_identifier" 36 104 110 4 4 [] # "type"); (B "variable_declarator" 37 111 142 4 4 [(B "identifier" 38 111 142 4 4 [] # "name")] # "declarator"); (B "accessor_list" 39 143 197 4 9 [(A "{" 40 143 144 4 4 []); (B "accessor_declaration" 41 149 176 5 7 [(A "get" 42 149 152 5 5 [] # "accessor"); (B "block" 43 153 176 5 7 [(A "{" 44 153 154 5 5 []); (B "return_statement" 45 161 170 6 6 [(A "return" 46 161 167 6 6 []); (B "int" 47 168 169 6 6 []); (A ";" 48 169 170 6 6 [])]); (A "}" 49 175 176 7 7 [])] # "body")]); (B "accessor_declaration" 50 181 193 8 8 [(B "modifiers" 51 181 188 8 8 [(B "modifier" 52 181 188 8 8 [(B "private" 53 181 188 8 8 [(A "private" 54 181 188 8 8 [])])])]); (A "set" 55 189 192 8 8 [] # "accessor"); (A ";" 56 192 193 8 8 [])]); (A "}" 57 196 197 9 9 [])])]); (B "field_declaration" 58 200 281 10 14 [(B "type_identifier" 59 200 206 10 10 [] # "type"); (B "variable_declarator" 60 207 232 10 10 [(B "identifier" 61 207 232 10 10 [] # "name")] # "declarator"); (B "accessor_list" 62 233 281 10 14 [(A "{" 63 233 234 10 10 []); (B "accessor_declaration" 64 239 277 11 13 [(A "set" 65 239 242 11 11 [] # "accessor"); (B "block" 66 243 277 11 13 [(A "{" 67 243 244 11 11 []); (B "expression_statement" 68 251 271 12 12 [(B "assignment_expression" 69 251 270 12 12 [(B "identifier" 70 251 262 12 12 [] # "left"); (B "assignment_operator" 71 263 264 12 12 [(A "=" 72 263 264 12 12 [])] # "operator"); (B "identifier" 73 265 270 12 12 [] # "right")]); (A ";" 74 270 271 12 12 [])]); (A "}" 75 276 277 13 13 [])] # "body")]); (A "}" 76 280 281 14 14 [])])]); (B "field_declaration" 77 284 371 15 19 [(B "modifiers" 78 284 291 15 15 [(B "modifier" 79 284 291 15 15 [(B "private" 80 284 291 15 15 [(A "private" 81 284 291 15 15 [])])])]); (B "type_identifier" 82 292 298 15 15 [] # "type"); (B "variable_declarator" 83 299 331 15 15 [(B "identifier" 84 299 331 15 15 [] # "name")] # "declarator"); (B "accessor_list" 85 332 371 15 19 [(A "{" 86 332 333 15 15 []); (B "accessor_declaration" 87 338 365 16 18 [(A "get" 88 338 341 16 16 [] # "accessor"); (B "block" 89 342 365 16 18 [(A "{" 90 342 343 16 16 []); (B "return_statement" 91 350 359 17 17 [(A "return" 92 350 356 17 17 []); (B "int" 93 357 358 17 17 []); (A ";" 94 358 359 17 17 [])]); (A "}" 95 364 365 18 18 [])] # "body")]); (A "}" 96 370 371 19 19 [])])]); (A "}" 97 372 373 20 20 [])] # "body")])]).
Example prettier80_SetterGetter : as_expected prettier80_SetterGetter_source prettier80_SetterGetter_tree (U "class A {
  String propertyMemberWithGet {
    get {
    }
  }
  String propertyMemberWithSet {
    set {
    }
  }

  public String propertyMemberWithGetPrivateSet {
    get {
      return 1;
    }
    private set;
  }
  String propertyMemberWithOnlySet {
    set {
      memberThree = value;
    }
  }
  private String privatePropertyMemberWithOnlyGet {
    get {
      return 2;
    }
  }
}
").
Proof. apply run_test_ok. vm_compute. reflexivity. Qed.

(* tests/prettier80/SharingClass.in *)
Definition prettier80_SharingClass_source : ustr := U "class SharingClass {
  public with sharing class PublicWithSharingClass {

  }

  private without sharing class PrivateWithoutSharingClass {

  }

  global without sharing class GlobalWithoutSharingClass {

  }

  virtual with sharing class VirtualWithSharingClass {

  }

  abstract with sharing class AbstractWithSharingClass {

  }
  without sharing class WithoutSharingClass {

  }
  with sharing class WithSharingClass {}

  inherited sharing class InheritedSharingClass {}
}
".
Definition prettier80_SharingClass_tree : span := (B "parser_output" 1 0 481 0 27 [(B "class_declaration" 2 0 480 0 26 [(A "class" 3 0 5 0 0 []); (B "identifier" 4 6 18 0 0 [] # "name"); (B "class_body" 5 19 480 0 26 [(A "{" 6 19 20 0 0 []); (B "class_declaration" 7 23 78 1 3 [(B "modifiers" 8 23 42 1 1 [(B "modifier" 9 23 29 1 1 [(B "public" 10 23 29 1 1 [(A "public" 11 23 29 1 1 [])])]); (B "modifier" 12 30 42 1 1 [(B "with_sharing" 13 30 42 1 1 [(A "with" 14 30 34 1 1 []); (A "sharing" 15 35 42 1 1 [])])])]); (A "class" 16 43 48 1 1 []); (B "identifier" 17 49 71 1 1 [] # "name"); (B "class_body" 18 72 78 1 3 [(A "{" 19 72 73 1 1 []); (A "}" 20 77 78 3 3 [])] # "body")]); (B "class_declaration" 21 82 145 5 7 [(B "modifiers" 22 82 105 5 5 [(B "modifier" 23 82 89 5 5 [(B "private" 24 82 89 5 5 [(A "private" 25 82 89 5 5 [])])]); (B "modifier" 26 90 105 5 5 [(B "without_sharing" 27 90 105 5 5 [(A "without" 28 90 97 5 5 []); (A "sharing" 29 98 105 5 5 [])])])]); (A "class" 30 106 111 5 5 []); (B "identifier" 31 112 138 5 5 [] # "name"); (B "class_body" 32 139 145 5 7 [(A "{" 33 139 140 5 5 []); (A "}" 34 144 145 7 7 [])] # "body")]); (B "class_declaration" 35 149 210 9 11 [(B "modifiers" 36 149 171 9 9 [(B "modifier" 37 149 155 9 9 [(B "global" 38 149 155 9 9 [(A "global" 39 149 155 9 9 [])])]); (B "modifier" 40 156 171 9 9 [(B "without_sharing" 41 156 171 9 9 [(A "without" 42 156 163 9 9 []); (A "sharing" 43 164 171 9 9 [])])])]); (A "class" 44 172 177 9 9 []); (B "identifier" 45 178 203 9 9 [] # "name"); (B "class_body" 46 204 210 9 11 [(A "{" 47 204 205 9 9 []); (A "}" 48 209 210 11 11 [])] # "body")]); (B "class_declaration" 49 214 271 13 15 [(B "modifiers" 50 214 234 13 13 [(B "modifier" 51 214 221 13 13 [(B "virtual" 52 214 221 13 13 [(A "virtual" 53 214 221 13 13 [])])]); (B "modifier" 54 222 234 13 13 [(B "with_sharing" 55 222 234 13 13 [(A "with" 56 222 226 13 13 []); (A "sharing" 57 227 234 13 13 [])])])]); (A "class" 58 235 240 13 13 []); (B "identifier" 59 241 264 13 13 [] # "name"); (B "class_body" 60 265 271 13 15 [(A "{" 61 265 266 13 13 []); (A "}" 62 270 271 15 15 [])] # "body")]); (B "class_declaration" 63 275 334 17 19 [(B "modifiers" 64 275 296 17 17 [(B "modifier" 65 275 283 17 17 [(B "abstract" 66 275 283 17 17 [(A "abstract" 67 275 283 17 17 [])])]); (B "modifier" 68 284 296 17 17 [(B "with_sharing" 69 284 296 17 17 [(A "with" 70 284 288 17 17 []); (A "sharing" 71 289 296 17 17 [])])])]); (A "class" 72 297 302 17 17 []); (B "identifier" 73 303 327 17 17 [] # "name"); (B "class_body" 74 328 334 17 19 [(A "{" 75 328 329 17 17 []); (A "}" 76 333 334 19 19 [])] # "body")]); (B "class_declaration" 77 337 385 20 22 [(B "modifiers" 78 337 352 20 20 [(B "modifier" 79 337 352 20 20 [(B "without_sharing" 80 337 352 20 20 [(A "without" 81 337 344 20 20 []); (A "sharing" 82 345 352 20 20 [])])])]); (A "class" 83 353 358 20 20 []); (B "identifier" 84 359 378 20 20 [] # "name"); (B "class_body" 85 379 385 20 22 [(A "{" 86 379 380 20 20 []); (A "}" 87 384 385 22 22 [])] # "body")]); (B "class_declaration" 88 388 426 23 23 [(B "modifiers" 89 388 400 23 23 [(B "modifier" 90 388 400 23 23 [(B "with_sharing" 91 388 400 23 23 [(A "with" 92 388 392 23 23 []); (A "sharing" 93 393 400 23 23 [])])])]); (A "class" 94 401 406 23 23 []); (B "identifier" 95 407 423 23 23 [] # "name"); (B "class_body" 96 424 426 23 23 [(A "{" 97 424 425 23 23 []); (A "}" 98 425 426 23 23 [])] # "body")]); (B "class_declaration" 99 430 478 25 25 [(B "modifiers" 100 430 447 25 25 [(B "modifier" 101 430 447 25 25 [(B "inherited_sharing" 102 430 447 25 25 [(A "inherited" 103 430 439 25 25 []); (A "sharing" 104 440 447 25 25 [])])])]); (A "class" 105 448 453 25 25 []); (B "identifier" 106 454 475 25 25 [] # "name"); (B "class_body" 107 476 478 25 25 [(A "{" 108 476 477 25 25 []); (A "}" 109 477 478 25 25 [])] # "body")]); (A "}" 110 479 480 26 26 [])] # "body")])]).
Example prettier80_SharingClass : as_expected prettier80_SharingClass_source prettier80_SharingClass_tree (U "class SharingClass {
  public with sharing class PublicWithSharingClass {
  }

  private without sharing class PrivateWithoutSharingClass {
  }

  global without sharing class GlobalWithoutSharingClass {
  }

  virtual with sharing class VirtualWithSharingClass {
  }

  abstract with sharing class AbstractWithSharingClass {
  }
  without sharing class WithoutSharingClass {
  }
  with sharing class WithSharingClass {
  }

  inherited sharing class InheritedSharingClass {
  }
}
").
Proof. apply run_test_ok. vm_compute. reflexivity. Qed.

(* tests/prettier80/SimpleMethod.in *)
Definition prettier80_SimpleMethod_source : ustr := U "public class SimpleMethod  {
  public String longMethodNameWithNoParamsShouldNotBreakInEmptyParamListAndYetSomehowDoes() {}

  public String sayHello() {
    return this.sayHello('Hello', 'World');
  }

  public String sayHello(String subject) {
    return sayHello('Hello', subject);
  }

  public String sayHelloWithModifier(static final String subject) {
    return null;
  }

  public String sayHelloWithDate() {
    SimpleMethod that = new SimpleMethod();
    DateTime rightNow = that.getNow(), tomorrow, yesterday = DateTime.now().addDays(-1);
    return 'Hello at ' + now.format();
  }


  private String sayHelloWithLongListOfParameters(String action, String subject, String location, Datetime dt) {
    return action + ' ' + subject + location + String.valueOf(dt);
  }

  void doNothing() {
    return;
  }

  private DateTime getNow() {
    return DateTime.now();
  }

  void simpleBooleanExpressions() {
    Boolean b = true;
    Boolean a = true || ((true && b) && (true || false));
  }

  void longMethodCall() {
    ((SObject) a).get('Very_Long_Field_Name__c').subString(0, 5).escapeHtml4().escapeEcmaScript().escapeJava().escapeUnicode();
  }

  @InvocableMethod(label='Insert Accounts' description='Inserts the accounts specified and returns the IDs of the new accounts.')
  public static List<ID> insertAccounts(List<Account> accounts) {
    return null;
  }
}
".
Definition prettier80_SimpleMethod_tree : span := (B "parser_output" 1 0 1379 0 48 [(B "class_declaration" 2 0 1378 0 47 [(B "modifiers" 3 0 6 0 0 [(B "modifier" 4 0 6 0 0 [(B "public" 5 0 6 0 0 [(A "public" 6 0 6 0 0 [])])])]); (A "class" 7 7 12 0 0 []); (B "identifier" 8 13 25 0 0 [] # "name"); (B "class_body" 9 27 1378 0 47 [(A "{" 10 27 28 0 0 []); (B "method_declaration" 11 31 123 1 1 [(B "modifiers" 12 31 37 1 1 [(B "modifier" 13 31 37 1 1 [(B "public" 14 31 37 1 1 [(A "public" 15 31 37 1 1 [])])])]); (B "type_identifier" 16 38 44 1 1 [] # "type"); (B "identifier" 17 45 118 1 1 [] # "name"); (B "formal_parameters" 18 118 120 1 1 [(A "(" 19 118 119 1 1 []); (A ")" 20 119 120 1 1 [])] # "parameters"); (B "block" 21 121 123 1 1 [(A "{" 22 121 122 1 1 []); (A "}" 23 122 123 1 1 [])] # "body")]); (B "method_declaration" 24 127 201 3 5 [(B "modifiers" 25 127 133 3 3 [(B "modifier" 26 127 133 3 3 [(B "public" 27 127 133 3 3 [(A "public" 28 127 133 3 3 [])])])]); (B "type_identifier" 29 134 140 3 3 [] # "type"); (B "identifier" 30 141 149 3 3 [] # "name"); (B "formal_parameters" 31 149 151 3 3 [(A "(" 32 149 150 3 3 []); (A ")" 33 150 151 3 3 [])] # "parameters"); (B "block" 34 152 201 3 5 [(A "{" 35 152 153 3 3 []); (B "return_statement" 36 158 197 4 4 [(A "return" 37 158 164 4 4 []); (B "method_invocation" 38 165 196 4 4 [(B "this" 39 165 169 4 4 [] # "object"); (A "." 40 169 170 4 4 []); (B "identifier" 41 170 178 4 4 [] # "name"); (B "argument_list" 42 178 196 4 4 [(A "(" 43 178 179 4 4 []); (B "string_literal" 44 179 186 4 4 []); (A "," 45 186 187 4 4 []); (B "string_literal" 46 188 195 4 4 []); (A ")" 47 195 196 4 4 [])] # "arguments")]); (A ";" 48 196 197 4 4 [])]); (A "}" 49 200 201 5 5 [])] # "body")]); (B "method_declaration" 50 205 288 7 9 [(B "modifiers" 51 205 211 7 7 [(B "modifier" 52 205 211 7 7 [(B "public" 53 205 211 7 7 [(A "public" 54 205 211 7 7 [])])])]); (B "type_identifier" 55 212 218 7 7 [] # "type"); (B "identifier" 56 219 227 7 7 [] # "name"); (B "formal_parameters" 57 227 243 7 7 [(A "(" 58 227 228 7 7 []); (B "formal_parameter" 59 228 242 7 7 [(B "type_identifier" 60 228 234 7 7 [] # "type"); (B "identifier" 61 235 242 7 7 [] # "name")]); (A ")" 62 242 243 7 7 [])] # "parameters"); (B "block" 63 244 288 7 9 [(A "{" 64 244 245 7 7 []); (B "return_statement" 65 250 284 8 8 [(A "return" 66 250 256 8 8 []); (B "method_invocation" 67 257 283 8 8 [(B "identifier" 68 257 265 8 8 [] # "name"); (B "argument_list" 69 265 283 8 8 [(A "(" 70 265 266 8 8 []); (B "string_literal" 71 266 273 8 8 []); (A "," 72 273 274 8 8 []); (B "identifier" 73 275 282 8 8 []); (A ")" 74 282 283 8 8 [])] # "arguments")]); (A ";" 75 283 284 8 8 [])]); (A "}" 76 287 288 9 9 [])] # "body")]); (B "method_declaration" 77 292 378 11 13 [(B "modifiers" 78 292 298 11 11 [(B "modifier" 79 292 298 11 11 [(B "public" 80 292 298 11 11 [(A "public" 81 292 298 11 11 [])])])]); (B "type_identifier" 82 299 305 11 11 [] # "type"); (B "identifier" 83 306 326 11 11 [] # "name"); (B "formal_parameters" 84 326 355 11 11 [(A "(" 85 326 327 11 11 []); (B "formal_parameter" 86 327 354 11 11 [(B "modifiers" 87 327 339 11 11 [(B "modifier" 88 327 333 11 11 [(B "static" 89 327 333 11 11 [(A "static" 90 327 333 11 11 [])])]); (B "modifier" 91 334 339 11 11 [(B "final" 92 334 339 11 11 [(A "final" 93 334 339 11 11 [])])])]); (B "type_identifier" 94 340 346 11 11 [] # "type"); (B "identifier" 95 347 354 11 11 [] # "name")]); (A ")" 96 354 355 11 11 [])] # "parameters"); (B "block" 97 356 378 11 13 [(A "{" 98 356 357 11 11 []); (B "return_statement" 99 362 374 12 12 [(A "return" 100 362 368 12 12 []); (B "null_literal" 101 369 373 12 12 []); (A ";" 102 373 374 12 12 [])]); (A "}" 103 377 378 13 13 [])] # "body")]); (B "method_declaration" 104 382 592 15 19 [(B "modifiers" 105 382 388 15 15 [(B "modifier" 106 382 388 15 15 [(B "public" 107 382 388 15 15 [(A "public" 108 382 388 15 15 [])])])]); (B "type_identifier" 109 389 395 15 15 [] # "type"); (B "identifier" 110 396 412 15 15 [] # "name"); (B "formal_parameters" 111 412 414 15 15 [(A "(" 112 412 413 15 15 []); (A ")" 113 413 414 15 15 [])] # "parameters"); (B "block" 114 415 592 15 19 [(A "{" 115 415 416 15 15 []); (B "local_variable_declaration" 116 421 460 16 16 [(B "type_identifier" 117 421 433 16 16 [] # "type"); (B "variable_declarator" 118 434 459 16 16 [(B "identifier" 119 434 438 16 16 [] # "name"); (B "assignment_operator" 120 439 440 16 16 [(A "=" 121 439 440 16 16 [])]); (B "object_creation_expression" 122 441 459 16 16 [(A "new" 123 441 444 16 16 []); (B "type_identifier" 124 445 457 16 16 [] # "type"); (B "argument_list" 125 457 459 16 16 [(A "(" 126 457 458 16 16 []); (A ")" 127 458 459 16 16 [])] # "arguments")] # "value")] # "declarator"); (A ";" 128 459 460 16 16 [])]); (B "local_variable_declaration" 129 465 549 17 17 [(B "type_identifier" 130 465 473 17 17 [] # "type"); (B "variable_declarator" 131 474 498 17 17 [(B "identifier" 132 474 482 17 17 [] # "name"); (B "assignment_operator" 133 483 484 17 17 [(A "=" 134 483 484 17 17 [])]); (B "method_invocation" 135 485 498 17 17 [(B "identifier" 136 485 489 17 17 [] # "object"); (A "." 137 489 490 17 17 []); (B "identifier" 138 490 496 17 17 [] # "name"); (B "argument_list" 139 496 498 17 17 [(A "(" 140 496 497 17 17 []); (A ")" 141 497 498 17 17 [])] # "arguments")] # "value")] # "declarator"); (A "," 142 498 499 17 17 []); (B "variable_declarator" 143 500 508 17 17 [(B "identifier" 144 500 508 17 17 [] # "name")] # "declarator"); (A "," 145 508 509 17 17 []); (B "variable_declarator" 146 510 548 17 17 [(B "identifier" 147 510 519 17 17 [] # "name"); (B "assignment_operator" 148 520 521 17 17 [(A "=" 149 520 521 17 17 [])]); (B "method_invocation" 150 522 548 17 17 [(B "method_invocation" 151 522 536 17 17 [(B "identifier" 152 522 530 17 17 [] # "object"); (A "." 153 530 531 17 17 []); (B "identifier" 154 531 534 17 17 [] # "name"); (B "argument_list" 155 534 536 17 17 [(A "(" 156 534 535 17 17 []); (A ")" 157 535 536 17 17 [])] # "arguments")] # "object"); (A "." 158 536 537 17 17 []); (B "identifier" 159 537 544 17 17 [] # "name"); (B "argument_list" 160 544 548 17 17 [(A "(" 161 544 545 17 17 []); (B "unary_expression" 162 545 547 17 17 [(A "-" 163 545 546 17 17 [] # "operator"); (B "int" 164 546 547 17 17 [] # "operand")]); (A ")" 165 547 548 17 17 [])] # "arguments")] # "value")] # "declarator"); (A ";" 166 548 549 17 17 [])]); (B "return_statement" 167 554 588 18 18 [(A "return" 168 554 560 18 18 []); (B "binary_expression" 169 561 587 18 18 [(B "string_literal" 170 561 572 18 18 [] # "left"); (A "+" 171 573 574 18 18 [] # "operator"); (B "method_invocation" 172 575 587 18 18 [(B "identifier" 173 575 578 18 18 [] # "object"); (A "." 174 578 579 18 18 []); (B "identifier" 175 579 585 18 18 [] # "name"); (B "argument_list" 176 585 587 18 18 [(A "(" 177 585 586 18 18 []); (A ")" 178 586 587 18 18 [])] # "arguments")] # "right")]); (A ";" 179 587 588 18 18 [])]); (A "}" 180 591 592 19 19 [])] # "body")]); (B "method_declaration" 181 597 778 22 24 [(B "modifiers" 182 597 604 22 22 [(B "modifier" 183 597 604 22 22 [(B "private" 184 597 604 22 22 [(A "private" 185 597 604 22 22 [])])])]); (B "type_identifier" 186 605 611 22 22 [] # "type"); (B "identifier" 187 612 644 22 22 [] # "name"); (B "formal_parameters" 188 644 705 22 22 [(A "(" 189 644 645 22 22 []); (B "formal_parameter" 190 645 658 22 22 [(B "type_identifier" 191 645 651 22 22 [] # "type"); (B "identifier" 192 652 658 22 22 [] # "name")]); (A "," 193 658 659 22 22 []); (B "formal_parameter" 194 660 674 22 22 [(B "type_identifier" 195 660 666 22 22 [] # "type"); (B "identifier" 196 667 674 22 22 [] # "name")]); (A "," 197 674 675 22 22 []); (B "formal_parameter" 198 676 691 22 22 [(B "type_identifier" 199 676 682 22 22 [] # "type"); (B "identifier" 200 683 691 22 22 [] # "name")]); (A "," 201 691 692 22 22 []); (B "formal_parameter" 202 693 704 22 22 [(B "type_identifier" 203 693 701 22 22 [] # "type"); (B "identifier" 204 702 704 22 22 [] # "name")]); (A ")" 205 704 705 22 22 [])] # "parameters"); (B "block" 206 706 778 22 24 [(A "{" 207 706 707 22 22 []); (B "return_statement" 208 712 774 23 23 [(A "return" 209 712 718 23 23 []); (B "binary_expression" 210 719 773 23 23 [(B "binary_expression" 211 719 752 23 23 [(B "binary_expression" 212 719 741 23 23 [(B "binary_expression" 213 719 731 23 23 [(B "identifier" 214 719 725 23 23 [] # "left"); (A "+" 215 726 727 23 23 [] # "operator"); (B "string_literal" 216 728 731 23 23 [] # "right")] # "left"); (A "+" 217 732 733 23 23 [] # "operator"); (B "identifier" 218 734 741 23 23 [] # "right")] # "left"); (A "+" 219 742 743 23 23 [] # "operator"); (B "identifier" 220 744 752 23 23 [] # "right")] # "left"); (A "+" 221 753 754 23 23 [] # "operator"); (B "method_invocation" 222 755 773 23 23 [(B "identifier" 223 755 761 23 23 [] # "object"); (A "." 224 761 762 23 23 []); (B "identifier" 225 762 769 23 23 [] # "name"); (B "argument_list" 226 769 773 23 23 [(A "(" 227 769 770 23 23 []); (B "identifier" 228 770 772 23 23 []); (A ")" 229 772 773 23 23 [])] # "arguments")] # "right")]); (A ";" 230 773 774 23 23 [])]); (A "}" 231 777 778 24 24 [])] # "body")]); (B "method_declaration" 232 782 816 26 28 [(B "void_type" 233 782 786 26 26 [] # "type"); (B "identifier" 234 787 796 26 26 [] # "name"); (B "formal_parameters" 235 796 798 26 26 [(A "(" 236 796 797 26 26 []); (A ")" 237 797 798 26 26 [])] # "parameters"); (B "block" 238 799 816 26 28 [(A "{" 239 799 800 26 26 []); (B "return_statement" 240 805 812 27 27 [(A "return" 241 805 811 27 27 []); (A ";" 242 811 812 27 27 [])]); (A "}" 243 815 816 28 28 [])] # "body")]); (B "method_declaration" 244 820 878 30 32 [(B "modifiers" 245 820 827 30 30 [(B "modifier" 246 820 827 30 30 [(B "private" 247 820 827 30 30 [(A "private" 248 820 827 30 30 [])])])]); (B "type_identifier" 249 828 836 30 30 [] # "type"); (B "identifier" 250 837 843 30 30 [] # "name"); (B "formal_parameters" 251 843 845 30 30 [(A "(" 252 843 844 30 30 []); (A ")" 253 844 845 30 30 [])] # "parameters"); (B "block" 254 846 878 30 32 [(A "{" 255 846 847 30 30 []); (B "return_statement" 256 852 874 31 31 [(A "return" 257 852 858 31 31 []); (B "method_invocation" 258 859 873 31 31 [(B "identifier" 259 859 867 31 31 [] # "object"); (A "." 260 867 868 31 31 []); (B "identifier" 261 868 871 31 31 [] # "name"); (B "argument_list" 262 871 873 31 31 [(A "(" 263 871 872 31 31 []); (A ")" 264 872 873 31 31 [])] # "arguments")]); (A ";" 265 873 874 31 31 [])]); (A "}" 266 877 878 32 32 [])] # "body")]); (B "method_declaration" 267 882 999 34 37 [(B "void_type" 268 882 886 34 34 [] # "type"); (B "identifier" 269 887 911 34 34 [] # "name"); (B "formal_parameters" 270 911 913 34 34 [(A "(" 271 911 912 34 34 []); (A ")" 272 912 913 34 34 [])] # "parameters"); (B "block" 273 914 999 34 37 [(A "{" 274 914 915 34 34 []); (B "local_variable_declaration" 275 920 937 35 35 [(B "type_identifier" 276 920 927 35 35 [] # "type"); (B "variable_declarator" 277 928 936 35 35 [(B "identifier" 278 928 929 35 35 [] # "name"); (B "assignment_operator" 279 930 931 35 35 [(A "=" 280 930 931 35 35 [])]); (B "boolean" 281 932 936 35 35 [(A "true" 282 932 936 35 35 [])] # "value")] # "declarator"); (A ";" 283 936 937 35 35 [])]); (B "local_variable_declaration" 284 942 995 36 36 [(B "type_identifier" 285 942 949 36 36 [] # "type"); (B "variable_declarator" 286 950 994 36 36 [(B "identifier" 287 950 951 36 36 [] # "name"); (B "assignment_operator" 288 952 953 36 36 [(A "=" 289 952 953 36 36 [])]); (B "binary_expression" 290 954 994 36 36 [(B "boolean" 291 954 958 36 36 [(A "true" 292 954 958 36 36 [])] # "left"); (A "||" 293 959 961 36 36 [] # "operator"); (B "parenthesized_expression" 294 962 994 36 36 [(A "(" 295 962 963 36 36 []); (B "binary_expression" 296 963 993 36 36 [(B "parenthesized_expression" 297 963 974 36 36 [(A "(" 298 963 964 36 36 []); (B "binary_expression" 299 964 973 36 36 [(B "boolean" 300 964 968 36 36 [(A "true" 301 964 968 36 36 [])] # "left"); (A "&&" 302 969 971 36 36 [] # "operator"); (B "identifier" 303 972 973 36 36 [] # "right")]); (A ")" 304 973 974 36 36 [])] # "left"); (A "&&" 305 975 977 36 36 [] # "operator"); (B "parenthesized_expression" 306 978 993 36 36 [(A "(" 307 978 979 36 36 []); (B "binary_expression" 308 979 992 36 36 [(B "boolean" 309 979 983 36 36 [(A "true" 310 979 983 36 36 [])] # "left"); (A "||" 311 984 986 36 36 [] # "operator"); (B "boolean" 312 987 992 36 36 [(A "false" 313 987 992 36 36 [])] # "right")]); (A ")" 314 992 993 36 36 [])] # "right")]); (A ")" 315 993 994 36 36 [])] # "right")] # "value")] # "declarator"); (A ";" 316 994 995 36 36 [])]); (A "}" 317 998 999 37 37 [])] # "body")]); (B "method_declaration" 318 1003 1158 39 41 [(B "void_type" 319 1003 1007 39 39 [] # "type"); (B "identifier" 320 1008 1022 39 39 [] # "name"); (B "formal_parameters" 321 1022 1024 39 39 [(A "(" 322 1022 1023 39 39 []); (A ")" 323 1023 1024 39 39 [])] # "parameters"); (B "block" 324 1025 1158 39 41 [(A "{" 325 1025 1026 39 39 []); (B "expression_statement" 326 1031 1154 40 40 [(B "method_invocation" 327 1031 1153 40 40 [(B "method_invocation" 328 1031 1137 40 40 [(B "method_invocation" 329 1031 1124 40 40 [(B "method_invocation" 330 1031 1105 40 40 [(B "method_invocation" 331 1031 1091 40 40 [(B "method_invocation" 332 1031 1075 40 40 [(B "parenthesized_expression" 333 1031 1044 40 40 [(A "(" 334 1031 1032 40 40 []); (B "cast_expression" 335 1032 1043 40 40 [(A "(" 336 1032 1033 40 40 []); (B "type_identifier" 337 1033 1040 40 40 [] # "type"); (A ")" 338 1040 1041 40 40 []); (B "identifier" 339 1042 1043 40 40 [] # "value")]); (A ")" 340 1043 1044 40 40 [])] # "object"); (A "." 341 1044 1045 40 40 []); (B "identifier" 342 1045 1048 40 40 [] # "name"); (B "argument_list" 343 1048 1075 40 40 [(A "(" 344 1048 1049 40 40 []); (B "string_literal" 345 1049 1074 40 40 []); (A ")" 346 1074 1075 40 40 [])] # "arguments")] # "object"); (A "." 347 1075 1076 40 40 []); (B "identifier" 348 1076 1085 40 40 [] # "name"); (B "argument_list" 349 1085 1091 40 40 [(A "(" 350 1085 1086 40 40 []); (B "int" 351 1086 1087 40 40 []); (A "," 352 1087 1088 40 40 []); (B "int" 353 1089 1090 40 40 []); (A ")" 354 1090 1091 40 40 [])] # "arguments")] # "object"); (A "." 355 1091 1092 40 40 []); (B "identifier" 356 1092 1103 40 40 [] # "name"); (B "argument_list" 357 1103 1105 40 40 [(A "(" 358 1103 1104 40 40 []); (A ")" 359 1104 1105 40 40 [])] # "arguments")] # "object"); (A "." 360 1105 1106 40 40 []); (B "identifier" 361 1106 1122 40 40 [] # "name"); (B "argument_list" 362 1122 1124 40 40 [(A "(" 363 1122 1123 40 40 []); (A ")" 364 1123 1124 40 40 [])] # "arguments")] # "object"); (A "." 365 1124 1125 40 40 []); (B "identifier" 366 1125 1135 40 40 [] # "name"); (B "argument_list" 367 1135 1137 40 40 [(A "(" 368 1135 1136 40 40 []); (A ")" 369 1136 1137 40 40 [])] # "arguments")] # "object"); (A "." 370 1137 1138 40 40 []); (B "identifier" 371 1138 1151 40 40 [] # "name"); (B "argument_list" 372 1151 1153 40 40 [(A "(" 373 1151 1152 40 40 []); (A ")" 374 1152 1153 40 40 [])] # "arguments")]); (A ";" 375 1153 1154 40 40 [])]); (A "}" 376 1157 1158 41 41 [])] # "body")]); (B "method_declaration" 377 1162 1376 43 46 [(B "modifiers" 378 1162 1305 43 44 [(B "annotation" 379 1162 1289 43 43 [(A "@" 380 1162 1163 43 43 []); (B "identifier" 381 1163 1178 43 43 [] # "name"); (B "annotation_argument_list" 382 1178 1289 43 43 [(A "(" 383 1178 1179 43 43 []); (B "annotation_key_value" 384 1179 1202 43 43 [(B "identifier" 385 1179 1184 43 43 [] # "key"); (A "=" 386 1184 1185 43 43 []); (B "string_literal" 387 1185 1202 43 43 [] # "value")]); (B "annotation_key_value" 388 1203 1288 43 43 [(B "identifier" 389 1203 1214 43 43 [] # "key"); (A "=" 390 1214 1215 43 43 []); (B "string_literal" 391 1215 1288 43 43 [] # "value")]); (A ")" 392 1288 1289 43 43 [])] # "arguments")]); (B "modifier" 393 1292 1298 44 44 [(B "public" 394 1292 1298 44 44 [(A "public" 395 1292 1298 44 44 [])])]); (B "modifier" 396 1299 1305 44 44 [(B "static" 397 1299 1305 44 44 [(A "static" 398 1299 1305 44 44 [])])])]); (B "generic_type" 399 1306 1314 44 44 [(B "type_identifier" 400 1306 1310 44 44 []); (B "type_arguments" 401 1310 1314 44 44 [(A "<" 402 1310 1311 44 44 []); (B "type_identifier" 403 1311 1313 44 44 []); (A ">" 404 1313 1314 44 44 [])])] # "type"); (B "identifier" 405 1315 1329 44 44 [] # "name"); (B "formal_parameters" 406 1329 1353 44 44 [(A "(" 407 1329 1330 44 44 []); (B "formal_parameter" 408 1330 1352 44 44 [(B "generic_type" 409 1330 1343 44 44 [(B "type_identifier" 410 1330 1334 44 44 []); (B "type_arguments" 411 1334 1343 44 44 [(A "<" 412 1334 1335 44 44 []); (B "type_identifier" 413 1335 1342 44 44 []); (A ">" 414 1342 1343 44 44 [])])] # "type"); (B "identifier" 415 1344 1352 44 44 [] # "name")]); (A ")" 416 1352 1353 44 44 [])] # "parameters"); (B "block" 417 1354 1376 44 46 [(A "{" 418 1354 1355 44 44 []); (B "return_statement" 419 1360 1372 45 45 [(A "return" 420 1360 1366 45 45 []); (B "null_literal" 421 1367 1371 45 45 []); (A ";" 422 1371 1372 45 45 [])]); (A "}" 423 1375 1376 46 46 [])] # "body")]); (A "}" 424 1377 1378 47 47 [])] # "body")])]).
Example prettier80_SimpleMethod : as_expected prettier80_SimpleMethod_source prettier80_SimpleMethod_tree (U "public class SimpleMethod {
  public String longMethodNameWithNoParamsShouldNotBreakInEmptyParamListAndYetSomehowDoes() {
  }

  public String sayHello() {
    return this.sayHello('Hello', 'World');
  }

  public String sayHello(String subject) {
    return sayHello('Hello', subject);
  }

  public String sayHelloWithModifier(static final String subject) {
    return null;
  }

  public String sayHelloWithDate() {
    SimpleMethod that = new SimpleMethod();
    DateTime rightNow = that.getNow(),
      tomorrow,
      yesterday = DateTime.now().addDays(-1);
    return 'Hello at ' + now.format();
  }

  private String sayHelloWithLongListOfParameters(
    String action,
    String subject,
    String location,
    Datetime dt
  ) {
    return action + ' ' + subject + location + String.valueOf(dt);
  }

  void doNothing() {
    return;
  }

  private DateTime getNow() {
    return DateTime.now();
  }

  void simpleBooleanExpressions() {
    Boolean b = true;
    Boolean a = true || ((true && b) && (true || false));
  }

  void longMethodCall() {
    ((SObject) a)
      .get('Very_Long_Field_Name__c')
      .subString(0, 5)
      .escapeHtml4()
      .escapeEcmaScript()
      .escapeJava()
      .escapeUnicode();
  }

  @InvocableMethod(
    label='Insert Accounts'
    description='Inserts the accounts specified and returns the IDs of the new accounts.'
  )
  public static List<ID> insertAccounts(List<Account> accounts) {
    return null;
  }
}
").
Proof. apply run_test_ok. vm_compute. reflexivity. Qed.

(* tests/prettier80/SwitchClass.in *)
Definition prettier80_SwitchClass_source : ustr := U "class SwitchClass {
  enum Month {JANUARY, FEBRUARY, MARCH, APRIL, MAY, JUNE, JULY, AUGUST, SEPTEMBER, OCTOBER, NOVEMBER, DECEMBER}

  public void switchTest() {
    Integer i = 1;
    Month s;
    sObject randomObject;

    switch on i {
      when 1 {
        System.debug('One');
      }
      when 2, 3, 4 {
        System.debug('Two three four');
      }
      when null {
        System.debug('Null');
      }
      when else {
        System.debug('Else');
      }
    }

    switch on s {
      when JANUARY {
        System.debug('January');
      }
      when FEBRUARY, MARCH, APRIL, MAY, JUNE, JULY, AUGUST, SEPTEMBER, OCTOBER, NOVEMBER, DECEMBER {
        System.debug('Other months');
      }
    }

    switch on randomObject {
      when EmumVariable.CaseOne {
        System.debug('Object');
      }
      when EmumVariable.CaseTwo, EnumVariable.CaseTwo {
        System.debug('Object');
      }
      when Account a {
        System.debug('Account ' + a);
      }
      when Contact c {
        System.debug('Contact ' + c);
      }
      when Opportunity {
        System.debug('No variable');
      }
      when null {
        System.debug('Null');
      }
      when else {
        System.debug('Default');
      }
    }
  }

  void soqlInSwitch() {
    switch on [SELECT Name FROM Contact LIMIT 1].Name {
      when 'Test Name' {
        System.debug('Test Name');
      }
      when else {
        System.debug('Everything Else');
      }
    }
  }
}

".
Definition prettier80_SwitchClass_tree : span := (B "parser_output" 1 0 1474 0 69 [(B "class_declaration" 2 0 1472 0 67 [(A "class" 3 0 5 0 0 []); (B "identifier" 4 6 17 0 0 [] # "name"); (B "class_body" 5 18 1472 0 67 [(A "{" 6 18 19 0 0 []); (B "enum_declaration" 7 22 131 1 1 [(A "enum" 8 22 26 1 1 []); (B "identifier" 9 27 32 1 1 [] # "name"); (B "enum_body" 10 33 131 1 1 [(A "{" 11 33 34 1 1 []); (B "enum_constant" 12 34 41 1 1 [(B "identifier" 13 34 41 1 1 [] # "name")]); (A "," 14 41 42 1 1 []); (B "enum_constant" 15 43 51 1 1 [(B "identifier" 16 43 51 1 1 [] # "name")]); (A "," 17 51 52 1 1 []); (B "enum_constant" 18 53 58 1 1 [(B "identifier" 19 53 58 1 1 [] # "name")]); (A "," 20 58 59 1 1 []); (B "enum_constant" 21 60 65 1 1 [(B "identifier" 22 60 65 1 1 [] # "name")]); (A "," 23 65 66 1 1 []); (B "enum_constant" 24 67 70 1 1 [(B "identifier" 25 67 70 1 1 [] # "name")]); (A "," 26 70 71 1 1 []); (B "enum_constant" 27 72 76 1 1 [(B "identifier" 28 72 76 1 1 [] # "name")]); (A "," 29 76 77 1 1 []); (B "enum_constant" 30 78 82 1 1 [(B "identifier" 31 78 82 1 1 [] # "name")]); (A "," 32 82 83 1 1 []); (B "enum_constant" 33 84 90 1 1 [(B "identifier" 34 84 90 1 1 [] # "name")]); (A "," 35 90 91 1 1 []); (B "enum_constant" 36 92 101 1 1 [(B "identifier" 37 92 101 1 1 [] # "name")]); (A "," 38 101 102 1 1 []); (B "enum_constant" 39 103 110 1 1 [(B "identifier" 40 103 110 1 1 [] # "name")]); (A "," 41 110 111 1 1 []); (B "enum_constant" 42 112 120 1 1 [(B "identifier" 43 112 120 1 1 [] # "name")]); (A "," 44 120 121 1 1 []); (B "enum_constant" 45 122 130 1 1 [(B "identifier" 46 122 130 1 1 [] # "name")]); (A "}" 47 130 131 1 1 [])] # "body")]); (B "method_declaration" 48 135 1244 3 55 [(B "modifiers" 49 135 141 3 3 [(B "modifier" 50 135 141 3 3 [(B "public" 51 135 141 3 3 [(A "public" 52 135 141 3 3 [])])])]); (B "void_type" 53 142 146 3 3 [] # "type"); (B "identifier" 54 147 157 3 3 [] # "name"); (B "formal_parameters" 55 157 159 3 3 [(A "(" 56 157 158 3 3 []); (A ")" 57 158 159 3 3 [])] # "parameters"); (B "block" 58 160 1244 3 55 [(A "{" 59 160 161 3 3 []); (B "local_variable_declaration" 60 166 180 4 4 [(B "type_identifier" 61 166 173 4 4 [] # "type"); (B "variable_declarator" 62 174 179 4 4 [(B "identifier" 63 174 175 4 4 [] # "name"); (B "assignment_operator" 64 176 177 4 4 [(A "=" 65 176 177 4 4 [])]); (B "int" 66 178 179 4 4 [] # "value")] # "declarator"); (A ";" 67 179 180 4 4 [])]); (B "local_variable_declaration" 68 185 193 5 5 [(B "type_identifier" 69 185 190 5 5 [] # "type"); (B "variable_declarator" 70 191 192 5 5 [(B "identifier" 71 191 192 5 5 [] # "name")] # "declarator"); (A ";" 72 192 193 5 5 [])]); (B "local_variable_declaration" 73 198 219 6 6 [(B "type_identifier" 74 198 205 6 6 [] # "type"); (B "variable_declarator" 75 206 218 6 6 [(B "identifier" 76 206 218 6 6 [] # "name")] # "declarator"); (A ";" 77 218 219 6 6 [])]); (B "switch_expression" 78 225 477 8 21 [(A "switch" 79 225 231 8 8 []); (A "on" 80 232 234 8 8 []); (B "identifier" 81 235 236 8 8 [] # "condition"); (B "switch_block" 82 237 477 8 21 [(A "{" 83 237 238 8 8 []); (B "switch_rule" 84 245 290 9 11 [(B "switch_label" 85 245 251 9 9 [(A "when" 86 245 249 9 9 []); (B "int" 87 250 251 9 9 [])]); (B "block" 88 252 290 9 11 [(A "{" 89 252 253 9 9 []); (B "expression_statement" 90 262 282 10 10 [(B "method_invocation" 91 262 281 10 10 [(B "identifier" 92 262 268 10 10 [] # "object"); (A "." 93 268 269 10 10 []); (B "identifier" 94 269 274 10 10 [] # "name"); (B "argument_list" 95 274 281 10 10 [(A "(" 96 274 275 10 10 []); (B "string_literal" 97 275 280 10 10 []); (A ")" 98 280 281 10 10 [])] # "arguments")]); (A ";" 99 281 282 10 10 [])]); (A "}" 100 289 290 11 11 [])])]); (B "switch_rule" 101 297 359 12 14 [(B "switch_label" 102 297 309 12 12 [(A "when" 103 297 301 12 12 []); (B "int" 104 302 303 12 12 []); (A "," 105 303 304 12 12 []); (B "int" 106 305 306 12 12 []); (A "," 107 306 307 12 12 []); (B "int" 108 308 309 12 12 [])]); (B "block" 109 310 359 12 14 [(A "{" 110 310 311 12 12 []); (B "expression_statement" 111 320 351 13 13 [(B "method_invocation" 112 320 350 13 13 [(B "identifier" 113 320 326 13 13 [] # "object"); (A "." 114 326 327 13 13 []); (B "identifier" 115 327 332 13 13 [] # "name"); (B "argument_list" 116 332 350 13 13 [(A "(" 117 332 333 13 13 []); (B "string_literal" 118 333 349 13 13 []); (A ")" 119 349 350 13 13 [])] # "arguments")]); (A ";" 120 350 351 13 13 [])]); (A "}" 121 358 359 14 14 [])])]); (B "switch_rule" 122 366 415 15 17 [(B "switch_label" 123 366 375 15 15 [(A "when" 124 366 370 15 15 []); (B "null_literal" 125 371 375 15 15 [])]); (B "block" 126 376 415 15 17 [(A "{" 127 376 377 15 15 []); (B "expression_statement" 128 386 407 16 16 [(B "method_invocation" 129 386 406 16 16 [(B "identifier" 130 386 392 16 16 [] # "object"); (A "." 131 392 393 16 16 []); (B "identifier" 132 393 398 16 16 [] # "name"); (B "argument_list" 133 398 406 16 16 [(A "(" 134 398 399 16 16 []); (B "string_literal" 135 399 405 16 16 []); (A ")" 136 405 406 16 16 [])] # "arguments")]); (A ";" 137 406 407 16 16 [])]); (A "}" 138 414 415 17 17 [])])]); (B "switch_rule" 139 422 471 18 20 [(B "switch_label" 140 422 431 18 18 [(A "when" 141 422 426 18 18 []); (A "else" 142 427 431 18 18 [])]); (B "block" 143 432 471 18 20 [(A "{" 144 432 433 18 18 []); (B "expression_statement" 145 442 463 19 19 [(B "method_invocation" 146 442 462 19 19 [(B "identifier" 147 442 448 19 19 [] # "object"); (A "." 148 448 449 19 19 []); (B "identifier" 149 449 454 19 19 [] # "name"); (B "argument_list" 150 454 462 19 19 [(A "(" 151 454 455 19 19 []); (B "string_literal" 152 455 461 19 19 []); (A ")" 153 461 462 19 19 [])] # "arguments")]); (A ";" 154 462 463 19 19 [])]); (A "}" 155 470 471 20 20 [])])]); (A "}" 156 476 477 21 21 [])] # "body")]); (B "switch_expression" 157 483 711 23 30 [(A "switch" 158 483 489 23 23 []); (A "on" 159 490 492 23 23 []); (B "identifier" 160 493 494 23 23 [] # "condition"); (B "switch_block" 161 495 711 23 30 [(A "{" 162 495 496 23 23 []); (B "switch_rule" 163 503 558 24 26 [(B "switch_label" 164 503 515 24 24 [(A "when" 165 503 507 24 24 []); (B "identifier" 166 508 515 24 24 [])]); (B "block" 167 516 558 24 26 [(A "{" 168 516 517 24 24 []); (B "expression_statement" 169 526 550 25 25 [(B "method_invocation" 170 526 549 25 25 [(B "identifier" 171 526 532 25 25 [] # "object"); (A "." 172 532 533 25 25 []); (B "identifier" 173 533 538 25 25 [] # "name"); (B "argument_list" 174 538 549 25 25 [(A "(" 175 538 539 25 25 []); (B "string_literal" 176 539 548 25 25 []); (A ")" 177 548 549 25 25 [])] # "arguments")]); (A ";" 178 549 550 25 25 [])]); (A "}" 179 557 558 26 26 [])])]); (B "switch_rule" 180 565 705 27 29 [(B "switch_label" 181 565 657 27 27 [(A "when" 182 565 569 27 27 []); (B "identifier" 183 570 578 27 27 []); (A "," 184 578 579 27 27 []); (B "identifier" 185 580 585 27 27 []); (A "," 186 585 586 27 27 []); (B "identifier" 187 587 592 27 27 []); (A "," 188 592 593 27 27 []); (B "identifier" 189 594 597 27 27 []); (A "," 190 597 598 27 27 []); (B "identifier" 191 599 603 27 27 []); (A "," 192 603 604 27 27 []); (B "identifier" 193 605 609 27 27 []); (A "," 194 609 610 27 27 []); (B "identifier" 195 611 617 27 27 []); (A "," 196 617 618 27 27 []); (B "identifier" 197 619 628 27 27 []); (A "," 198 628 629 27 27 []); (B "identifier" 199 630 637 27 27 []); (A "," 200 637 638 27 27 []); (B "identifier" 201 639 647 27 27 []); (A "," 202 647 648 27 27 []); (B "identifier" 203 649 657 27 27 [])]); (B "block" 204 658 705 27 29 [(A "{" 205 658 659 27 27 []); (B "expression_statement" 206 668 697 28 28 [(B "method_invocation" 207 668 696 28 28 [(B "identifier" 208 668 674 28 28 [] # "object"); (A "." 209 674 675 28 28 []); (B "identifier" 210 675 680 28 28 [] # "name"); (B "argument_list" 211 680 696 28 28 [(A "(" 212 680 681 28 28 []); (B "string_literal" 213 681 695 28 28 []); (A ")" 214 695 696 28 28 [])] # "arguments")]); (A ";" 215 696 697 28 28 [])]); (A "}" 216 704 705 29 29 [])])]); (A "}" 217 710 711 30 30 [])] # "body")]); (B "switch_expression" 218 717 1240 32 54 [(A "switch" 219 717 723 32 32 []); (A "on" 220 724 726 32 32 []); (B "identifier" 221 727 739 32 32 [] # "condition"); (B "switch_block" 222 740 1240 32 54 [(A "{" 223 740 741 32 32 []); (B "switch_rule" 224 748 815 33 35 [(B "switch_label" 225 748 773 33 33 [(A "when" 226 748 752 33 33 []); (B "field_access" 227 753 773 33 33 [(B "identifier" 228 753 765 33 33 [] # "object"); (A "." 229 765 766 33 33 []); (B "identifier" 230 766 773 33 33 [] # "field")])]); (B "block" 231 774 815 33 35 [(A "{" 232 774 775 33 33 []); (B "expression_statement" 233 784 807 34 34 [(B "method_invocation" 234 784 806 34 34 [(B "identifier" 235 784 790 34 34 [] # "object"); (A "." 236 790 791 34 34 []); (B "identifier" 237 791 796 34 34 [] # "name"); (B "argument_list" 238 796 806 34 34 [(A "(" 239 796 797 34 34 []); (B "string_literal" 240 797 805 34 34 []); (A ")" 241 805 806 34 34 [])] # "arguments")]); (A ";" 242 806 807 34 34 [])]); (A "}" 243 814 815 35 35 [])])]); (B "switch_rule" 244 822 911 36 38 [(B "switch_label" 245 822 869 36 36 [(A "when" 246 822 826 36 36 []); (B "field_access" 247 827 847 36 36 [(B "identifier" 248 827 839 36 36 [] # "object"); (A "." 249 839 840 36 36 []); (B "identifier" 250 840 847 36 36 [] # "field")]); (A "," 251 847 848 36 36 []); (B "field_access" 252 849 869 36 36 [(B "identifier" 253 849 861 36 36 [] # "object"); (A "." 254 861 862 36 36 []); (B "identifier" 255 862 869 36 36 [] # "field")])]); (B "block" 256 870 911 36 38 [(A "{" 257 870 871 36 36 []); (B "expression_statement" 258 880 903 37 37 [(B "method_invocation" 259 880 902 37 37 [(B "identifier" 260 880 886 37 37 [] # "object"); (A "." 261 886 887 37 37 []); (B "identifier" 262 887 892 37 37 [] # "name"); (B "argument_list" 263 892 902 37 37 [(A "(" 264 892 893 37 37 []); (B "string_literal" 265 893 901 37 37 []); (A ")" 266 901 902 37 37 [])] # "arguments")]); (A ";" 267 902 903 37 37 [])]); (A "}" 268 910 911 38 38 [])])]); (B "switch_rule" 269 918 980 39 41 [(B "switch_label" 270 918 932 39 39 [(A "when" 271 918 922 39 39 []); (B "when_sobject_type" 272 923 932 39 39 [(B "type_identifier" 273 923 930 39 39 []); (B "identifier" 274 931 932 39 39 [])])]); (B "block" 275 933 980 39 41 [(A "{" 276 933 934 39 39 []); (B "expression_statement" 277 943 972 40 40 [(B "method_invocation" 278 943 971 40 40 [(B "identifier" 279 943 949 40 40 [] # "object"); (A "." 280 949 950 40 40 []); (B "identifier" 281 950 955 40 40 [] # "name"); (B "argument_list" 282 955 971 40 40 [(A "(" 283 955 956 40 40 []); (B "binary_expression" 284 956 970 40 40 [(B "string_literal" 285 956 966 40 40 [] # "left"); (A "+" 286 967 968 40 40 [] # "operator"); (B "identifier" 287 969 970 40 40 [] # "right")]); (A ")" 288 970 971 40 40 [])] # "arguments")]); (A ";" 289 971 972 40 40 [])]); (A "}" 290 979 980 41 41 [])])]); (B "switch_rule" 291 987 1049 42 44 [(B "switch_label" 292 987 1001 42 42 [(A "when" 293 987 991 42 42 []); (B "when_sobject_type" 294 992 1001 42 42 [(B "type_identifier" 295 992 999 42 42 []); (B "identifier" 296 1000 1001 42 42 [])])]); (B "block" 297 1002 1049 42 44 [(A "{" 298 1002 1003 42 42 []); (B "expression_statement" 299 1012 1041 43 43 [(B "method_invocation" 300 1012 1040 43 43 [(B "identifier" 301 1012 1018 43 43 [] # "object"); (A "." 302 1018 1019 43 43 []); (B "identifier" 303 1019 1024 43 43 [] # "name"); (B "argument_list" 304 1024 1040 43 43 [(A "(" 305 1024 1025 43 43 []); (B "binary_expression" 306 1025 1039 43 43 [(B "string_literal" 307 1025 1035 43 43 [] # "left"); (A "+" 308 1036 1037 43 43 [] # "operator"); (B "identifier" 309 1038 1039 43 43 [] # "right")]); (A ")" 310 1039 1040 43 43 [])] # "arguments")]); (A ";" 311 1040 1041 43 43 [])]); (A "}" 312 1048 1049 44 44 [])])]); (B "switch_rule" 313 1056 1119 45 47 [(B "switch_label" 314 1056 1072 45 45 [(A "when" 315 1056 1060 45 45 []); (B "identifier" 316 1061 1072 45 45 [])]); (B "block" 317 1073 1119 45 47 [(A "{" 318 1073 1074 45 45 []); (B "expression_statement" 319 1083 1111 46 46 [(B "method_invocation" 320 1083 1110 46 46 [(B "identifier" 321 1083 1089 46 46 [] # "object"); (A "." 322 1089 1090 46 46 []); (B "identifier" 323 1090 1095 46 46 [] # "name"); (B "argument_list" 324 1095 1110 46 46 [(A "(" 325 1095 1096 46 46 []); (B "string_literal" 326 1096 1109 46 46 []); (A ")" 327 1109 1110 46 46 [])] # "arguments")]); (A ";" 328 1110 1111 46 46 [])]); (A "}" 329 1118 1119 47 47 [])])]); (B "switch_rule" 330 1126 1175 48 50 [(B "switch_label" 331 1126 1135 48 48 [(A "when" 332 1126 1130 48 48 []); (B "null_literal" 333 1131 1135 48 48 [])]); (B "block" 334 1136 1175 48 50 [(A "{" 335 1136 1137 48 48 []); (B "expression_statement" 336 1146 1167 49 49 [(B "method_invocation" 337 1146 1166 49 49 [(B "identifier" 338 1146 1152 49 49 [] # "object"); (A "." 339 1152 1153 49 49 []); (B "identifier" 340 1153 1158 49 49 [] # "name"); (B "argument_list" 341 1158 1166 49 49 [(A "(" 342 1158 1159 49 49 []); (B "string_literal" 343 1159 1165 49 49 []); (A ")" 344 1165 1166 49 49 [])] # "arguments")]); (A ";" 345 1166 1167 49 49 [])]); (A "}" 346 1174 1175 50 50 [])])]); (B "switch_rule" 347 1182 1234 51 53 [(B "switch_label" 348 1182 1191 51 51 [(A "when" 349 1182 1186 51 51 []); (A "else" 350 1187 1191 51 51 [])]); (B "block" 351 1192 1234 51 53 [(A "{" 352 1192 1193 51 51 []); (B "expression_statement" 353 1202 1226 52 52 [(B "method_invocation" 354 1202 1225 52 52 [(B "identifier" 355 1202 1208 52 52 [] # "object"); (A "." 356 1208 1209 52 52 []); (B "identifier" 357 1209 1214 52 52 [] # "name"); (B "argument_list" 358 1214 1225 52 52 [(A "(" 359 1214 1215 52 52 []); (B "string_literal" 360 1215 1224 52 52 []); (A ")" 361 1224 1225 52 52 [])] # "arguments")]); (A ";" 362 1225 1226 52 52 [])]); (A "}" 363 1233 1234 53 53 [])])]); (A "}" 364 1239 1240 54 54 [])] # "body")]); (A "}" 365 1243 1244 55 55 [])] # "body")]); (B "method_declaration" 366 1248 1470 57 66 [(B "void_type" 367 1248 1252 57 57 [] # "type"); (B "identifier" 368 1253 1265 57 57 [] # "name"); (B "formal_parameters" 369 1265 1267 57 57 [(A "(" 370 1265 1266 57 57 []); (A ")" 371 1266 1267 57 57 [])] # "parameters"); (B "block" 372 1268 1470 57 66 [(A "{" 373 1268 1269 57 57 []); (B "switch_expression" 374 1274 1466 58 65 [(A "switch" 375 1274 1280 58 58 []); (A "on" 376 1281 1283 58 58 []); (B "field_access" 377 1284 1323 58 58 [(B "query_expression" 378 1284 1318 58 58 [(A "[" 379 1284 1285 58 58 []); (B "soql_query_body" 380 1285 1317 58 58 [(B "select_clause" 381 1285 1296 58 58 [(A "SELECT" 382 1285 1291 58 58 []); (B "field_identifier" 383 1292 1296 58 58 [(B "identifier" 384 1292 1296 58 58 [])])] # "select_clause"); (B "from_clause" 385 1297 1309 58 58 [(A "FROM" 386 1297 1301 58 58 []); (B "storage_identifier" 387 1302 1309 58 58 [(B "identifier" 388 1302 1309 58 58 [])])] # "from_clause"); (B "limit_clause" 389 1310 1317 58 58 [(A "LIMIT" 390 1310 1315 58 58 []); (B "int" 391 1316 1317 58 58 [])] # "limit_clause")]); (A "]" 392 1317 1318 58 58 [])] # "object"); (A "." 393 1318 1319 58 58 []); (B "identifier" 394 1319 1323 58 58 [] # "field")] # "condition"); (B "switch_block" 395 1324 1466 58 65 [(A "{" 396 1324 1325 58 58 []); (B "switch_rule" 397 1332 1393 59 61 [(B "switch_label" 398 1332 1348 59 59 [(A "when" 399 1332 1336 59 59 []); (B "string_literal" 400 1337 1348 59 59 [])]); (B "block" 401 1349 1393 59 61 [(A "{" 402 1349 1350 59 59 []); (B "expression_statement" 403 1359 1385 60 60 [(B "method_invocation" 404 1359 1384 60 60 [(B "identifier" 405 1359 1365 60 60 [] # "object"); (A "." 406 1365 1366 60 60 []); (B "identifier" 407 1366 1371 60 60 [] # "name"); (B "argument_list" 408 1371 1384 60 60 [(A "(" 409 1371 1372 60 60 []); (B "string_literal" 410 1372 1383 60 60 []); (A ")" 411 1383 1384 60 60 [])] # "arguments")]); (A ";" 412 1384 1385 60 60 [])]); (A "}" 413 1392 1393 61 61 [])])]); (B "switch_rule" 414 1400 1460 62 64 [(B "switch_label" 415 1400 1409 62 62 [(A "when" 416 1400 1404 62 62 []); (A "else" 417 1405 1409 62 62 [])]); (B "block" 418 1410 1460 62 64 [(A "{" 419 1410 1411 62 62 []); (B "expression_statement" 420 1420 1452 63 63 [(B "method_invocation" 421 1420 1451 63 63 [(B "identifier" 422 1420 1426 63 63 [] # "object"); (A "." 423 1426 1427 63 63 []); (B "identifier" 424 1427 1432 63 63 [] # "name"); (B "argument_list" 425 1432 1451 63 63 [(A "(" 426 1432 1433 63 63 []); (B "string_literal" 427 1433 1450 63 63 []); (A ")" 428 1450 1451 63 63 [])] # "arguments")]); (A ";" 429 1451 1452 63 63 [])]); (A "}" 430 1459 1460 64 64 [])])]); (A "}" 431 1465 1466 65 65 [])] # "body")]); (A "}" 432 1469 1470 66 66 [])] # "body")]); (A "}" 433 1471 1472 67 67 [])] # "body")])]).
Example prettier80_SwitchClass : as_expected prettier80_SwitchClass_source prettier80_SwitchClass_tree (U "class SwitchClass {
  enum Month {
    JANUARY,
    FEBRUARY,
    MARCH,
    APRIL,
    MAY,
    JUNE,
    JULY,
    AUGUST,
    SEPTEMBER,
    OCTOBER,
    NOVEMBER,
    DECEMBER
  }

  public void switchTest() {
    Integer i = 1;
    Month s;
    sObject randomObject;

    switch on i {
      when 1 {
        System.debug('One');
      }
      when 2, 3, 4 {
        System.debug('Two three four');
      }
      when null {
        System.debug('Null');
      }
      when else {
        System.debug('Else');
      }
    }

    switch on s {
      when JANUARY {
        System.debug('January');
      }
      when FEBRUARY,
        MARCH,
        APRIL,
        MAY,
        JUNE,
        JULY,
        AUGUST,
        SEPTEMBER,
        OCTOBER,
        NOVEMBER,
        DECEMBER {
        System.debug('Other months');
      }
    }

    switch on randomObject {
      when EmumVariable.CaseOne {
        System.debug('Object');
      }
      when EmumVariable.CaseTwo, EnumVariable.CaseTwo {
        System.debug('Object');
      }
      when Account a {
        System.debug('Account ' + a);
      }
      when Contact c {
        System.debug('Contact ' + c);
      }
      when Opportunity {
        System.debug('No variable');
      }
      when null {
        System.debug('Null');
      }
      when else {
        System.debug('Default');
      }
    }
  }

  void soqlInSwitch() {
    switch on [SELECT Name FROM Contact LIMIT 1].Name {
      when 'Test Name' {
        System.debug('Test Name');
      }
      when else {
        System.debug('Everything Else');
      }
    }
  }
}
").
Proof. apply run_test_ok. vm_compute. reflexivity. Qed.

(* the trees of this file *)
Definition trees : list node :=
  [grow 0 prettier80_AnnotatedClass_source prettier80_AnnotatedClass_tree;
   grow 0 prettier80_AnnotatedFalseParamClass_source prettier80_AnnotatedFalseParamClass_tree;
   grow 0 prettier80_AnnotatedMethod_source prettier80_AnnotatedMethod_tree;
   grow 0 prettier80_AnnotatedTrueParamClass_source prettier80_AnnotatedTrueParamClass_tree;
   grow 0 prettier80_Annotation1_source prettier80_Annotation1_tree;
   grow 0 prettier80_BlockMember_source prettier80_BlockMember_tree;
   grow 0 prettier80_ClassInterface1_source prettier80_ClassInterface1_tree;
   grow 0 prettier80_ClassInterface2_source prettier80_ClassInterface2_tree;
   grow 0 prettier80_EmptyBlockStatement_source prettier80_EmptyBlockStatement_tree;
   grow 0 prettier80_EmptyBlockStatement2_source prettier80_EmptyBlockStatement2_tree;
   grow 0 prettier80_EmptyEnum_source prettier80_EmptyEnum_tree;
   grow 0 prettier80_EmptyInterface_source prettier80_EmptyInterface_tree;
   grow 0 prettier80_EmptyLine_source prettier80_EmptyLine_tree;
   grow 0 prettier80_Enum_source prettier80_Enum_tree;
   grow 0 prettier80_EnumClass_source prettier80_EnumClass_tree;
   grow 0 prettier80_ExceptionClass_source prettier80_ExceptionClass_tree;
   grow 0 prettier80_ExpressionClass_source prettier80_ExpressionClass_tree;
   grow 0 prettier80_GenericClass_source prettier80_GenericClass_tree;
   grow 0 prettier80_GenericInterface_source prettier80_GenericInterface_tree;
   grow 0 prettier80_GetterSetter_source prettier80_GetterSetter_tree;
   grow 0 prettier80_GlobalEmptyClass_source prettier80_GlobalEmptyClass_tree;
   grow 0 prettier80_InterfaceClass_source prettier80_InterfaceClass_tree;
   grow 0 prettier80_Java_source prettier80_Java_tree;
   grow 0 prettier80_Literal_source prettier80_Literal_tree;
   grow 0 prettier80_LoopClass_source prettier80_LoopClass_tree;
   grow 0 prettier80_Namespace_source prettier80_Namespace_tree;
   grow 0 prettier80_PackageVersion_source prettier80_PackageVersion_tree;
   grow 0 prettier80_PrivateEmptyClass_source prettier80_PrivateEmptyClass_tree;
   grow 0 prettier80_PublicEmptyClass_source prettier80_PublicEmptyClass_tree;
   grow 0 prettier80_RunAsClass_source prettier80_RunAsClass_tree;
   grow 0 prettier80_SOSL1_source prettier80_SOSL1_tree;
   grow 0 prettier80_SOSL2_source prettier80_SOSL2_tree;
   grow 0 prettier80_SOSL3_source prettier80_SOSL3_tree;
   grow 0 prettier80_SafeNavigationOperator_source prettier80_SafeNavigationOperator_tree;
   grow 0 prettier80_SetterGetter_source prettier80_SetterGetter_tree;
   grow 0 prettier80_SharingClass_source prettier80_SharingClass_tree;
   grow 0 prettier80_SimpleMethod_source prettier80_SimpleMethod_tree;
   grow 0 prettier80_SwitchClass_source prettier80_SwitchClass_tree].
