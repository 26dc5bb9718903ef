(* Written by conformance/gen.py. Each Example is one test of the project: the source is the text
   of the .in file named above it, the tree is the one conformance/apex.py reads from that text, and
   the expected text is the .cls file beside it. tests/test.rs runs the same comparison. *)
From Coq Require Import List String NArith.
From Verif Require Import Base Cst ConfTrees.
Import ListNotations.
Local Open Scope string_scope.
Local Open Scope list_scope.

(* tests/prettier80/sw2.in *)
Definition prettier80_sw2_source : ustr := U "public class Me {
    {
        Integer i = 0;
switch on    i{
            when 
            2,
            3, 4   
        {
                        System.debug('when block 2 and 3 and 4')
                        ;

                }
            when 5, 6 {
                    System.debug('when block 5 and 6');
            }
            when 7 

            {
                System.debug('when block 7');
            }
            when 
            else {

                System.debug('default');
            }
        }
    }
}
".
Definition prettier80_sw2_tree : span := (B "parser_output" 1 0 536 0 28 [(B "class_declaration" 2 0 535 0 27 [(B "modifiers" 3 0 6 0 0 [(B "modifier" 4 0 6 0 0 [(B "public" 5 0 6 0 0 [(A "public" 6 0 6 0 0 [])])])]); (A "class" 7 7 12 0 0 []); (B "identifier" 8 13 15 0 0 [] # "name"); (B "class_body" 9 16 535 0 27 [(A "{" 10 16 17 0 0 []); (B "block" 11 22 533 1 26 [(A "{" 12 22 23 1 1 []); (B "local_variable_declaration" 13 32 46 2 2 [(B "type_identifier" 14 32 39 2 2 [] # "type"); (B "variable_declarator" 15 40 45 2 2 [(B "identifier" 16 40 41 2 2 [] # "name"); (B "assignment_operator" 17 42 43 2 2 [(A "=" 18 42 43 2 2 [])]); (B "int" 19 44 45 2 2 [] # "value")] # "declarator"); (A ";" 20 45 46 2 2 [])]); (B "switch_expression" 21 47 527 3 25 [(A "switch" 22 47 53 3 3 []); (A "on" 23 54 56 3 3 []); (B "identifier" 24 60 61 3 3 [] # "condition"); (B "switch_block" 25 61 527 3 25 [(A "{" 26 61 62 3 3 []); (B "switch_rule" 27 75 235 4 11 [(B "switch_label" 28 75 112 4 6 [(A "when" 29 75 79 4 4 []); (B "int" 30 93 94 5 5 []); (A "," 31 94 95 5 5 []); (B "int" 32 108 109 6 6 []); (A "," 33 109 110 6 6 []); (B "int" 34 111 112 6 6 [])]); (B "block" 35 124 235 7 11 [(A "{" 36 124 125 7 7 []); (B "expression_statement" 37 150 216 8 9 [(B "method_invocation" 38 150 190 8 8 [(B "identifier" 39 150 156 8 8 [] # "object"); (A "." 40 156 157 8 8 []); (B "identifier" 41 157 162 8 8 [] # "name"); (B "argument_list" 42 162 190 8 8 [(A "(" 43 162 163 8 8 []); (B "string_literal" 44 163 189 8 8 []); (A ")" 45 189 190 8 8 [])] # "arguments")]); (A ";" 46 215 216 9 9 [])]); (A "}" 47 234 235 11 11 [])])]); (B "switch_rule" 48 248 329 12 14 [(B "switch_label" 49 248 257 12 12 [(A "when" 50 248 252 12 12 []); (B "int" 51 253 254 12 12 []); (A "," 52 254 255 12 12 []); (B "int" 53 256 257 12 12 [])]); (B "block" 54 258 329 12 14 [(A "{" 55 258 259 12 12 []); (B "expression_statement" 56 280 315 13 13 [(B "method_invocation" 57 280 314 13 13 [(B "identifier" 58 280 286 13 13 [] # "object"); (A "." 59 286 287 13 13 []); (B "identifier" 60 287 292 13 13 [] # "name"); (B "argument_list" 61 292 314 13 13 [(A "(" 62 292 293 13 13 []); (B "string_literal" 63 293 313 13 13 []); (A ")" 64 313 314 13 13 [])] # "arguments")]); (A ";" 65 314 315 13 13 [])]); (A "}" 66 328 329 14 14 [])])]); (B "switch_rule" 67 342 424 15 19 [(B "switch_label" 68 342 348 15 15 [(A "when" 69 342 346 15 15 []); (B "int" 70 347 348 15 15 [])]); (B "block" 71 363 424 17 19 [(A "{" 72 363 364 17 17 []); (B "expression_statement" 73 381 410 18 18 [(B "method_invocation" 74 381 409 18 18 [(B "identifier" 75 381 387 18 18 [] # "object"); (A "." 76 387 388 18 18 []); (B "identifier" 77 388 393 18 18 [] # "name"); (B "argument_list" 78 393 409 18 18 [(A "(" 79 393 394 18 18 []); (B "string_literal" 80 394 408 18 18 []); (A ")" 81 408 409 18 18 [])] # "arguments")]); (A ";" 82 409 410 18 18 [])]); (A "}" 83 423 424 19 19 [])])]); (B "switch_rule" 84 437 517 20 24 [(B "switch_label" 85 437 459 20 21 [(A "when" 86 437 441 20 20 []); (A "else" 87 455 459 21 21 [])]); (B "block" 88 460 517 21 24 [(A "{" 89 460 461 21 21 []); (B "expression_statement" 90 479 503 23 23 [(B "method_invocation" 91 479 502 23 23 [(B "identifier" 92 479 485 23 23 [] # "object"); (A "." 93 485 486 23 23 []); (B "identifier" 94 486 491 23 23 [] # "name"); (B "argument_list" 95 491 502 23 23 [(A "(" 96 491 492 23 23 []); (B "string_literal" 97 492 501 23 23 []); (A ")" 98 501 502 23 23 [])] # "arguments")]); (A ";" 99 502 503 23 23 [])]); (A "}" 100 516 517 24 24 [])])]); (A "}" 101 526 527 25 25 [])] # "body")]); (A "}" 102 532 533 26 26 [])]); (A "}" 103 534 535 27 27 [])] # "body")])]).
Example prettier80_sw2 : as_expected prettier80_sw2_source prettier80_sw2_tree (U "public class Me {
  {
    Integer i = 0;
    switch on i {
      when 2, 3, 4 {
        System.debug('when block 2 and 3 and 4');
      }
      when 5, 6 {
        System.debug('when block 5 and 6');
      }
      when 7 {
        System.debug('when block 7');
      }
      when else {
        System.debug('default');
      }
    }
  }
}
").
Proof. apply run_test_ok. vm_compute. reflexivity. Qed.

(* tests/prettier80/sw3.in *)
Definition prettier80_sw3_source : ustr := U "public class Me {
    {
        Integer i = 0;

        switch on  someInteger
        ( i ) 

        {
            when 2 {
                System.debug('when block 2');
            }
            when 3 {
                System.debug('when block 3');
            }
            when else {
                System.debug('default');
            }
        }
    }
}
".
Definition prettier80_sw3_tree : span := (B "parser_output" 1 0 364 0 20 [(B "class_declaration" 2 0 363 0 19 [(B "modifiers" 3 0 6 0 0 [(B "modifier" 4 0 6 0 0 [(B "public" 5 0 6 0 0 [(A "public" 6 0 6 0 0 [])])])]); (A "class" 7 7 12 0 0 []); (B "identifier" 8 13 15 0 0 [] # "name"); (B "class_body" 9 16 363 0 19 [(A "{" 10 16 17 0 0 []); (B "block" 11 22 361 1 18 [(A "{" 12 22 23 1 1 []); (B "local_variable_declaration" 13 32 46 2 2 [(B "type_identifier" 14 32 39 2 2 [] # "type"); (B "variable_declarator" 15 40 45 2 2 [(B "identifier" 16 40 41 2 2 [] # "name"); (B "assignment_operator" 17 42 43 2 2 [(A "=" 18 42 43 2 2 [])]); (B "int" 19 44 45 2 2 [] # "value")] # "declarator"); (A ";" 20 45 46 2 2 [])]); (B "switch_expression" 21 56 355 4 17 [(A "switch" 22 56 62 4 4 []); (A "on" 23 63 65 4 4 []); (B "method_invocation" 24 67 92 4 5 [(B "identifier" 25 67 78 4 4 [] # "name"); (B "argument_list" 26 87 92 5 5 [(A "(" 27 87 88 5 5 []); (B "identifier" 28 89 90 5 5 []); (A ")" 29 91 92 5 5 [])] # "arguments")] # "condition"); (B "switch_block" 30 103 355 7 17 [(A "{" 31 103 104 7 7 []); (B "switch_rule" 32 117 185 8 10 [(B "switch_label" 33 117 123 8 8 [(A "when" 34 117 121 8 8 []); (B "int" 35 122 123 8 8 [])]); (B "block" 36 124 185 8 10 [(A "{" 37 124 125 8 8 []); (B "expression_statement" 38 142 171 9 9 [(B "method_invocation" 39 142 170 9 9 [(B "identifier" 40 142 148 9 9 [] # "object"); (A "." 41 148 149 9 9 []); (B "identifier" 42 149 154 9 9 [] # "name"); (B "argument_list" 43 154 170 9 9 [(A "(" 44 154 155 9 9 []); (B "string_literal" 45 155 169 9 9 []); (A ")" 46 169 170 9 9 [])] # "arguments")]); (A ";" 47 170 171 9 9 [])]); (A "}" 48 184 185 10 10 [])])]); (B "switch_rule" 49 198 266 11 13 [(B "switch_label" 50 198 204 11 11 [(A "when" 51 198 202 11 11 []); (B "int" 52 203 204 11 11 [])]); (B "block" 53 205 266 11 13 [(A "{" 54 205 206 11 11 []); (B "expression_statement" 55 223 252 12 12 [(B "method_invocation" 56 223 251 12 12 [(B "identifier" 57 223 229 12 12 [] # "object"); (A "." 58 229 230 12 12 []); (B "identifier" 59 230 235 12 12 [] # "name"); (B "argument_list" 60 235 251 12 12 [(A "(" 61 235 236 12 12 []); (B "string_literal" 62 236 250 12 12 []); (A ")" 63 250 251 12 12 [])] # "arguments")]); (A ";" 64 251 252 12 12 [])]); (A "}" 65 265 266 13 13 [])])]); (B "switch_rule" 66 279 345 14 16 [(B "switch_label" 67 279 288 14 14 [(A "when" 68 279 283 14 14 []); (A "else" 69 284 288 14 14 [])]); (B "block" 70 289 345 14 16 [(A "{" 71 289 290 14 14 []); (B "expression_statement" 72 307 331 15 15 [(B "method_invocation" 73 307 330 15 15 [(B "identifier" 74 307 313 15 15 [] # "object"); (A "." 75 313 314 15 15 []); (B "identifier" 76 314 319 15 15 [] # "name"); (B "argument_list" 77 319 330 15 15 [(A "(" 78 319 320 15 15 []); (B "string_literal" 79 320 329 15 15 []); (A ")" 80 329 330 15 15 [])] # "arguments")]); (A ";" 81 330 331 15 15 [])]); (A "}" 82 344 345 16 16 [])])]); (A "}" 83 354 355 17 17 [])] # "body")]); (A "}" 84 360 361 18 18 [])]); (A "}" 85 362 363 19 19 [])] # "body")])]).
Example prettier80_sw3 : as_expected prettier80_sw3_source prettier80_sw3_tree (U "public class Me {
  {
    Integer i = 0;

    switch on someInteger(i) {
      when 2 {
        System.debug('when block 2');
      }
      when 3 {
        System.debug('when block 3');
      }
      when else {
        System.debug('default');
      }
    }
  }
}
").
Proof. apply run_test_ok. vm_compute. reflexivity. Qed.

(* tests/prettier80/sw4.in *)
Definition prettier80_sw4_source : ustr := U "public class Me {
    {
        SObject s = new Account();

        switch on s {
            when  Account  a{
                System.debug('account ' + a);
            }
            when 
            Contact    c {
                System.debug('contact ' + c);
            }
            when null {
                System.debug('null');
            }
            when else {
                System.debug('default');
            }
        }
    }
}
".
Definition prettier80_sw4_tree : span := (B "parser_output" 1 0 450 0 21 [(B "class_declaration" 2 0 449 0 20 [(B "modifiers" 3 0 6 0 0 [(B "modifier" 4 0 6 0 0 [(B "public" 5 0 6 0 0 [(A "public" 6 0 6 0 0 [])])])]); (A "class" 7 7 12 0 0 []); (B "identifier" 8 13 15 0 0 [] # "name"); (B "class_body" 9 16 449 0 20 [(A "{" 10 16 17 0 0 []); (B "block" 11 22 447 1 19 [(A "{" 12 22 23 1 1 []); (B "local_variable_declaration" 13 32 58 2 2 [(B "type_identifier" 14 32 39 2 2 [] # "type"); (B "variable_declarator" 15 40 57 2 2 [(B "identifier" 16 40 41 2 2 [] # "name"); (B "assignment_operator" 17 42 43 2 2 [(A "=" 18 42 43 2 2 [])]); (B "object_creation_expression" 19 44 57 2 2 [(A "new" 20 44 47 2 2 []); (B "type_identifier" 21 48 55 2 2 [] # "type"); (B "argument_list" 22 55 57 2 2 [(A "(" 23 55 56 2 2 []); (A ")" 24 56 57 2 2 [])] # "arguments")] # "value")] # "declarator"); (A ";" 25 57 58 2 2 [])]); (B "switch_expression" 26 68 441 4 18 [(A "switch" 27 68 74 4 4 []); (A "on" 28 75 77 4 4 []); (B "identifier" 29 78 79 4 4 [] # "condition"); (B "switch_block" 30 80 441 4 18 [(A "{" 31 80 81 4 4 []); (B "switch_rule" 32 94 171 5 7 [(B "switch_label" 33 94 110 5 5 [(A "when" 34 94 98 5 5 []); (B "when_sobject_type" 35 100 110 5 5 [(B "type_identifier" 36 100 107 5 5 []); (B "identifier" 37 109 110 5 5 [])])]); (B "block" 38 110 171 5 7 [(A "{" 39 110 111 5 5 []); (B "expression_statement" 40 128 157 6 6 [(B "method_invocation" 41 128 156 6 6 [(B "identifier" 42 128 134 6 6 [] # "object"); (A "." 43 134 135 6 6 []); (B "identifier" 44 135 140 6 6 [] # "name"); (B "argument_list" 45 140 156 6 6 [(A "(" 46 140 141 6 6 []); (B "binary_expression" 47 141 155 6 6 [(B "string_literal" 48 141 151 6 6 [] # "left"); (A "+" 49 152 153 6 6 [] # "operator"); (B "identifier" 50 154 155 6 6 [] # "right")]); (A ")" 51 155 156 6 6 [])] # "arguments")]); (A ";" 52 156 157 6 6 [])]); (A "}" 53 170 171 7 7 [])])]); (B "switch_rule" 54 184 276 8 11 [(B "switch_label" 55 184 214 8 9 [(A "when" 56 184 188 8 8 []); (B "when_sobject_type" 57 202 214 9 9 [(B "type_identifier" 58 202 209 9 9 []); (B "identifier" 59 213 214 9 9 [])])]); (B "block" 60 215 276 9 11 [(A "{" 61 215 216 9 9 []); (B "expression_statement" 62 233 262 10 10 [(B "method_invocation" 63 233 261 10 10 [(B "identifier" 64 233 239 10 10 [] # "object"); (A "." 65 239 240 10 10 []); (B "identifier" 66 240 245 10 10 [] # "name"); (B "argument_list" 67 245 261 10 10 [(A "(" 68 245 246 10 10 []); (B "binary_expression" 69 246 260 10 10 [(B "string_literal" 70 246 256 10 10 [] # "left"); (A "+" 71 257 258 10 10 [] # "operator"); (B "identifier" 72 259 260 10 10 [] # "right")]); (A ")" 73 260 261 10 10 [])] # "arguments")]); (A ";" 74 261 262 10 10 [])]); (A "}" 75 275 276 11 11 [])])]); (B "switch_rule" 76 289 352 12 14 [(B "switch_label" 77 289 298 12 12 [(A "when" 78 289 293 12 12 []); (B "null_literal" 79 294 298 12 12 [])]); (B "block" 80 299 352 12 14 [(A "{" 81 299 300 12 12 []); (B "expression_statement" 82 317 338 13 13 [(B "method_invocation" 83 317 337 13 13 [(B "identifier" 84 317 323 13 13 [] # "object"); (A "." 85 323 324 13 13 []); (B "identifier" 86 324 329 13 13 [] # "name"); (B "argument_list" 87 329 337 13 13 [(A "(" 88 329 330 13 13 []); (B "string_literal" 89 330 336 13 13 []); (A ")" 90 336 337 13 13 [])] # "arguments")]); (A ";" 91 337 338 13 13 [])]); (A "}" 92 351 352 14 14 [])])]); (B "switch_rule" 93 365 431 15 17 [(B "switch_label" 94 365 374 15 15 [(A "when" 95 365 369 15 15 []); (A "else" 96 370 374 15 15 [])]); (B "block" 97 375 431 15 17 [(A "{" 98 375 376 15 15 []); (B "expression_statement" 99 393 417 16 16 [(B "method_invocation" 100 393 416 16 16 [(B "identifier" 101 393 399 16 16 [] # "object"); (A "." 102 399 400 16 16 []); (B "identifier" 103 400 405 16 16 [] # "name"); (B "argument_list" 104 405 416 16 16 [(A "(" 105 405 406 16 16 []); (B "string_literal" 106 406 415 16 16 []); (A ")" 107 415 416 16 16 [])] # "arguments")]); (A ";" 108 416 417 16 16 [])]); (A "}" 109 430 431 17 17 [])])]); (A "}" 110 440 441 18 18 [])] # "body")]); (A "}" 111 446 447 19 19 [])]); (A "}" 112 448 449 20 20 [])] # "body")])]).
Example prettier80_sw4 : as_expected prettier80_sw4_source prettier80_sw4_tree (U "public class Me {
  {
    SObject s = new Account();

    switch on s {
      when Account a {
        System.debug('account ' + a);
      }
      when Contact c {
        System.debug('contact ' + c);
      }
      when null {
        System.debug('null');
      }
      when else {
        System.debug('default');
      }
    }
  }
}
").
Proof. apply run_test_ok. vm_compute. reflexivity. Qed.

(* tests/prettier80/sw5.in *)
Definition prettier80_sw5_source : ustr := U "public class Me {
    {
        SObject s = new Account();

        switch on season {
            when  WINTER {
                System.debug('boots');
            }
            when   SPRING, 
            SUMMER {
                System.debug('sandals');
            }
            when else {
                System.debug('none of the above');
            }
        }
    }
}
".
Definition prettier80_sw5_tree : span := (B "parser_output" 1 0 378 0 18 [(B "class_declaration" 2 0 377 0 17 [(B "modifiers" 3 0 6 0 0 [(B "modifier" 4 0 6 0 0 [(B "public" 5 0 6 0 0 [(A "public" 6 0 6 0 0 [])])])]); (A "class" 7 7 12 0 0 []); (B "identifier" 8 13 15 0 0 [] # "name"); (B "class_body" 9 16 377 0 17 [(A "{" 10 16 17 0 0 []); (B "block" 11 22 375 1 16 [(A "{" 12 22 23 1 1 []); (B "local_variable_declaration" 13 32 58 2 2 [(B "type_identifier" 14 32 39 2 2 [] # "type"); (B "variable_declarator" 15 40 57 2 2 [(B "identifier" 16 40 41 2 2 [] # "name"); (B "assignment_operator" 17 42 43 2 2 [(A "=" 18 42 43 2 2 [])]); (B "object_creation_expression" 19 44 57 2 2 [(A "new" 20 44 47 2 2 []); (B "type_identifier" 21 48 55 2 2 [] # "type"); (B "argument_list" 22 55 57 2 2 [(A "(" 23 55 56 2 2 []); (A ")" 24 56 57 2 2 [])] # "arguments")] # "value")] # "declarator"); (A ";" 25 57 58 2 2 [])]); (B "switch_expression" 26 68 369 4 15 [(A "switch" 27 68 74 4 4 []); (A "on" 28 75 77 4 4 []); (B "identifier" 29 78 84 4 4 [] # "condition"); (B "switch_block" 30 85 369 4 15 [(A "{" 31 85 86 4 4 []); (B "switch_rule" 32 99 166 5 7 [(B "switch_label" 33 99 111 5 5 [(A "when" 34 99 103 5 5 []); (B "identifier" 35 105 111 5 5 [])]); (B "block" 36 112 166 5 7 [(A "{" 37 112 113 5 5 []); (B "expression_statement" 38 130 152 6 6 [(B "method_invocation" 39 130 151 6 6 [(B "identifier" 40 130 136 6 6 [] # "object"); (A "." 41 136 137 6 6 []); (B "identifier" 42 137 142 6 6 [] # "name"); (B "argument_list" 43 142 151 6 6 [(A "(" 44 142 143 6 6 []); (B "string_literal" 45 143 150 6 6 []); (A ")" 46 150 151 6 6 [])] # "arguments")]); (A ";" 47 151 152 6 6 [])]); (A "}" 48 165 166 7 7 [])])]); (B "switch_rule" 49 179 270 8 11 [(B "switch_label" 50 179 213 8 9 [(A "when" 51 179 183 8 8 []); (B "identifier" 52 186 192 8 8 []); (A "," 53 192 193 8 8 []); (B "identifier" 54 207 213 9 9 [])]); (B "block" 55 214 270 9 11 [(A "{" 56 214 215 9 9 []); (B "expression_statement" 57 232 256 10 10 [(B "method_invocation" 58 232 255 10 10 [(B "identifier" 59 232 238 10 10 [] # "object"); (A "." 60 238 239 10 10 []); (B "identifier" 61 239 244 10 10 [] # "name"); (B "argument_list" 62 244 255 10 10 [(A "(" 63 244 245 10 10 []); (B "string_literal" 64 245 254 10 10 []); (A ")" 65 254 255 10 10 [])] # "arguments")]); (A ";" 66 255 256 10 10 [])]); (A "}" 67 269 270 11 11 [])])]); (B "switch_rule" 68 283 359 12 14 [(B "switch_label" 69 283 292 12 12 [(A "when" 70 283 287 12 12 []); (A "else" 71 288 292 12 12 [])]); (B "block" 72 293 359 12 14 [(A "{" 73 293 294 12 12 []); (B "expression_statement" 74 311 345 13 13 [(B "method_invocation" 75 311 344 13 13 [(B "identifier" 76 311 317 13 13 [] # "object"); (A "." 77 317 318 13 13 []); (B "identifier" 78 318 323 13 13 [] # "name"); (B "argument_list" 79 323 344 13 13 [(A "(" 80 323 324 13 13 []); (B "string_literal" 81 324 343 13 13 []); (A ")" 82 343 344 13 13 [])] # "arguments")]); (A ";" 83 344 345 13 13 [])]); (A "}" 84 358 359 14 14 [])])]); (A "}" 85 368 369 15 15 [])] # "body")]); (A "}" 86 374 375 16 16 [])]); (A "}" 87 376 377 17 17 [])] # "body")])]).
Example prettier80_sw5 : as_expected prettier80_sw5_source prettier80_sw5_tree (U "public class Me {
  {
    SObject s = new Account();

    switch on season {
      when WINTER {
        System.debug('boots');
      }
      when SPRING, SUMMER {
        System.debug('sandals');
      }
      when else {
        System.debug('none of the above');
      }
    }
  }
}
").
Proof. apply run_test_ok. vm_compute. reflexivity. Qed.

(* tests/prettier80/sw6.in *)
Definition prettier80_sw6_source : ustr := U "public class Me {
    {
        switch on (x) {
              when 1 { return 1; }
          when (( 2    )) { 
              return 2
          ; }
                  when ( 3 ), ( 4 ) { return 3; 

                  }
        }
    }
}
".
Definition prettier80_sw6_tree : span := (B "parser_output" 1 0 237 0 13 [(B "class_declaration" 2 0 236 0 12 [(B "modifiers" 3 0 6 0 0 [(B "modifier" 4 0 6 0 0 [(B "public" 5 0 6 0 0 [(A "public" 6 0 6 0 0 [])])])]); (A "class" 7 7 12 0 0 []); (B "identifier" 8 13 15 0 0 [] # "name"); (B "class_body" 9 16 236 0 12 [(A "{" 10 16 17 0 0 []); (B "block" 11 22 234 1 11 [(A "{" 12 22 23 1 1 []); (B "switch_expression" 13 32 228 2 10 [(A "switch" 14 32 38 2 2 []); (A "on" 15 39 41 2 2 []); (B "parenthesized_expression" 16 42 45 2 2 [(A "(" 17 42 43 2 2 []); (B "identifier" 18 43 44 2 2 []); (A ")" 19 44 45 2 2 [])] # "condition"); (B "switch_block" 20 46 228 2 10 [(A "{" 21 46 47 2 2 []); (B "switch_rule" 22 62 82 3 3 [(B "switch_label" 23 62 68 3 3 [(A "when" 24 62 66 3 3 []); (B "int" 25 67 68 3 3 [])]); (B "block" 26 69 82 3 3 [(A "{" 27 69 70 3 3 []); (B "return_statement" 28 71 80 3 3 [(A "return" 29 71 77 3 3 []); (B "int" 30 78 79 3 3 []); (A ";" 31 79 80 3 3 [])]); (A "}" 32 81 82 3 3 [])])]); (B "switch_rule" 33 93 148 4 6 [(B "switch_label" 34 93 108 4 4 [(A "when" 35 93 97 4 4 []); (B "parenthesized_expression" 36 98 108 4 4 [(A "(" 37 98 99 4 4 []); (B "parenthesized_expression" 38 99 107 4 4 [(A "(" 39 99 100 4 4 []); (B "int" 40 101 102 4 4 []); (A ")" 41 106 107 4 4 [])]); (A ")" 42 107 108 4 4 [])])]); (B "block" 43 109 148 4 6 [(A "{" 44 109 110 4 4 []); (B "return_statement" 45 126 146 5 6 [(A "return" 46 126 132 5 5 []); (B "int" 47 133 134 5 5 []); (A ";" 48 145 146 6 6 [])]); (A "}" 49 147 148 6 6 [])])]); (B "switch_rule" 50 167 218 7 9 [(B "switch_label" 51 167 184 7 7 [(A "when" 52 167 171 7 7 []); (B "parenthesized_expression" 53 172 177 7 7 [(A "(" 54 172 173 7 7 []); (B "int" 55 174 175 7 7 []); (A ")" 56 176 177 7 7 [])]); (A "," 57 177 178 7 7 []); (B "parenthesized_expression" 58 179 184 7 7 [(A "(" 59 179 180 7 7 []); (B "int" 60 181 182 7 7 []); (A ")" 61 183 184 7 7 [])])]); (B "block" 62 185 218 7 9 [(A "{" 63 185 186 7 7 []); (B "return_statement" 64 187 196 7 7 [(A "return" 65 187 193 7 7 []); (B "int" 66 194 195 7 7 []); (A ";" 67 195 196 7 7 [])]); (A "}" 68 217 218 9 9 [])])]); (A "}" 69 227 228 10 10 [])] # "body")]); (A "}" 70 233 234 11 11 [])]); (A "}" 71 235 236 12 12 [])] # "body")])]).
Example prettier80_sw6 : as_expected prettier80_sw6_source prettier80_sw6_tree (U "public class Me {
  {
    switch on (x) {
      when 1 {
        return 1;
      }
      when ((2)) {
        return 2;
      }
      when (3), (4) {
        return 3;
      }
    }
  }
}
").
Proof. apply run_test_ok. vm_compute. reflexivity. Qed.

(* tests/prettier80/trigger1.in *)
Definition prettier80_trigger1_source : ustr := U "trigger myAccountTrigger on Account(before insert) {
  System.debug('Inside trigger');
  if (Trigger.isBefore) {
    if (Trigger.isDelete) {

      for (Account a : Trigger.old) {
        if (a.name != 'okToDelete') {
          a.addError('You can\'t delete this record!');
        }
      }
    } else {

      for (Account a : Trigger.new) {
        if (a.name == 'bad') {
          a.name.addError('Bad name');
        }
      }
      if (Trigger.isInsert) {
        for (Account a : Trigger.new) {
          System.debug('New');
        }
      } else {
        if (Trigger.isInsert) {
          List<Contact> contacts = new List<Contact>();
          for (Account a : Trigger.new) {
            if(a.Name == 'makeContact') {
              System.debug('Make Contact');
            }
          }
        }
      }
    }}}
".
Definition prettier80_trigger1_tree : span := (B "parser_output" 1 0 826 0 32 [(B "trigger_declaration" 2 0 825 0 31 [(A "trigger" 3 0 7 0 0 []); (B "identifier" 4 8 24 0 0 [] # "name"); (A "on" 5 25 27 0 0 []); (B "identifier" 6 28 35 0 0 [] # "object"); (A "(" 7 35 36 0 0 []); (B "trigger_event" 8 36 49 0 0 [(B "before_insert" 9 36 49 0 0 [(A "before" 10 36 42 0 0 []); (A "insert" 11 43 49 0 0 [])])]); (A ")" 12 49 50 0 0 []); (B "trigger_body" 13 51 825 0 31 [(B "block" 14 51 825 0 31 [(A "{" 15 51 52 0 0 []); (B "expression_statement" 16 55 86 1 1 [(B "method_invocation" 17 55 85 1 1 [(B "identifier" 18 55 61 1 1 [] # "object"); (A "." 19 61 62 1 1 []); (B "identifier" 20 62 67 1 1 [] # "name"); (B "argument_list" 21 67 85 1 1 [(A "(" 22 67 68 1 1 []); (B "string_literal" 23 68 84 1 1 []); (A ")" 24 84 85 1 1 [])] # "arguments")]); (A ";" 25 85 86 1 1 [])]); (B "if_statement" 26 89 824 2 31 [(A "if" 27 89 91 2 2 []); (B "parenthesized_expression" 28 92 110 2 2 [(A "(" 29 92 93 2 2 []); (B "field_access" 30 93 109 2 2 [(B "identifier" 31 93 100 2 2 [] # "object"); (A "." 32 100 101 2 2 []); (B "identifier" 33 101 109 2 2 [] # "field")]); (A ")" 34 109 110 2 2 [])] # "condition"); (B "block" 35 111 824 2 31 [(A "{" 36 111 112 2 2 []); (B "if_statement" 37 117 823 3 31 [(A "if" 38 117 119 3 3 []); (B "parenthesized_expression" 39 120 138 3 3 [(A "(" 40 120 121 3 3 []); (B "field_access" 41 121 137 3 3 [(B "identifier" 42 121 128 3 3 [] # "object"); (A "." 43 128 129 3 3 []); (B "identifier" 44 129 137 3 3 [] # "field")]); (A ")" 45 137 138 3 3 [])] # "condition"); (B "block" 46 139 297 3 10 [(A "{" 47 139 140 3 3 []); (B "enhanced_for_statement" 48 148 291 5 9 [(A "for" 49 148 151 5 5 []); (A "(" 50 152 153 5 5 []); (B "type_identifier" 51 153 160 5 5 [] # "type"); (B "identifier" 52 161 162 5 5 [] # "name"); (A ":" 53 163 164 5 5 []); (B "field_access" 54 165 176 5 5 [(B "identifier" 55 165 172 5 5 [] # "object"); (A "." 56 172 173 5 5 []); (B "identifier" 57 173 176 5 5 [] # "field")] # "value"); (A ")" 58 176 177 5 5 []); (B "block" 59 178 291 5 9 [(A "{" 60 178 179 5 5 []); (B "if_statement" 61 188 283 6 8 [(A "if" 62 188 190 6 6 []); (B "parenthesized_expression" 63 191 215 6 6 [(A "(" 64 191 192 6 6 []); (B "binary_expression" 65 192 214 6 6 [(B "field_access" 66 192 198 6 6 [(B "identifier" 67 192 193 6 6 [] # "object"); (A "." 68 193 194 6 6 []); (B "identifier" 69 194 198 6 6 [] # "field")] # "left"); (A "!=" 70 199 201 6 6 [] # "operator"); (B "string_literal" 71 202 214 6 6 [] # "right")]); (A ")" 72 214 215 6 6 [])] # "condition"); (B "block" 73 216 283 6 8 [(A "{" 74 216 217 6 6 []); (B "expression_statement" 75 228 273 7 7 [(B "method_invocation" 76 228 272 7 7 [(B "identifier" 77 228 229 7 7 [] # "object"); (A "." 78 229 230 7 7 []); (B "identifier" 79 230 238 7 7 [] # "name"); (B "argument_list" 80 238 272 7 7 [(A "(" 81 238 239 7 7 []); (B "string_literal" 82 239 271 7 7 []); (A ")" 83 271 272 7 7 [])] # "arguments")]); (A ";" 84 272 273 7 7 [])]); (A "}" 85 282 283 8 8 [])] # "consequence")]); (A "}" 86 290 291 9 9 [])] # "body")]); (A "}" 87 296 297 10 10 [])] # "consequence"); (A "else" 88 298 302 10 10 []); (B "block" 89 303 823 10 31 [(A "{" 90 303 304 10 10 []); (B "enhanced_for_statement" 91 312 431 12 16 [(A "for" 92 312 315 12 12 []); (A "(" 93 316 317 12 12 []); (B "type_identifier" 94 317 324 12 12 [] # "type"); (B "identifier" 95 325 326 12 12 [] # "name"); (A ":" 96 327 328 12 12 []); (B "field_access" 97 329 340 12 12 [(B "identifier" 98 329 336 12 12 [] # "object"); (A "." 99 336 337 12 12 []); (B "identifier" 100 337 340 12 12 [] # "field")] # "value"); (A ")" 101 340 341 12 12 []); (B "block" 102 342 431 12 16 [(A "{" 103 342 343 12 12 []); (B "if_statement" 104 352 423 13 15 [(A "if" 105 352 354 13 13 []); (B "parenthesized_expression" 106 355 372 13 13 [(A "(" 107 355 356 13 13 []); (B "binary_expression" 108 356 371 13 13 [(B "field_access" 109 356 362 13 13 [(B "identifier" 110 356 357 13 13 [] # "object"); (A "." 111 357 358 13 13 []); (B "identifier" 112 358 362 13 13 [] # "field")] # "left"); (A "==" 113 363 365 13 13 [] # "operator"); (B "string_literal" 114 366 371 13 13 [] # "right")]); (A ")" 115 371 372 13 13 [])] # "condition"); (B "block" 116 373 423 13 15 [(A "{" 117 373 374 13 13 []); (B "expression_statement" 118 385 413 14 14 [(B "method_invocation" 119 385 412 14 14 [(B "field_access" 120 385 391 14 14 [(B "identifier" 121 385 386 14 14 [] # "object"); (A "." 122 386 387 14 14 []); (B "identifier" 123 387 391 14 14 [] # "field")] # "object"); (A "." 124 391 392 14 14 []); (B "identifier" 125 392 400 14 14 [] # "name"); (B "argument_list" 126 400 412 14 14 [(A "(" 127 400 401 14 14 []); (B "string_literal" 128 401 411 14 14 []); (A ")" 129 411 412 14 14 [])] # "arguments")]); (A ";" 130 412 413 14 14 [])]); (A "}" 131 422 423 15 15 [])] # "consequence")]); (A "}" 132 430 431 16 16 [])] # "body")]); (B "if_statement" 133 438 817 17 30 [(A "if" 134 438 440 17 17 []); (B "parenthesized_expression" 135 441 459 17 17 [(A "(" 136 441 442 17 17 []); (B "field_access" 137 442 458 17 17 [(B "identifier" 138 442 449 17 17 [] # "object"); (A "." 139 449 450 17 17 []); (B "identifier" 140 450 458 17 17 [] # "field")]); (A ")" 141 458 459 17 17 [])] # "condition"); (B "block" 142 460 550 17 21 [(A "{" 143 460 461 17 17 []); (B "enhanced_for_statement" 144 470 542 18 20 [(A "for" 145 470 473 18 18 []); (A "(" 146 474 475 18 18 []); (B "type_identifier" 147 475 482 18 18 [] # "type"); (B "identifier" 148 483 484 18 18 [] # "name"); (A ":" 149 485 486 18 18 []); (B "field_access" 150 487 498 18 18 [(B "identifier" 151 487 494 18 18 [] # "object"); (A "." 152 494 495 18 18 []); (B "identifier" 153 495 498 18 18 [] # "field")] # "value"); (A ")" 154 498 499 18 18 []); (B "block" 155 500 542 18 20 [(A "{" 156 500 501 18 18 []); (B "expression_statement" 157 512 532 19 19 [(B "method_invocation" 158 512 531 19 19 [(B "identifier" 159 512 518 19 19 [] # "object"); (A "." 160 518 519 19 19 []); (B "identifier" 161 519 524 19 19 [] # "name"); (B "argument_list" 162 524 531 19 19 [(A "(" 163 524 525 19 19 []); (B "string_literal" 164 525 530 19 19 []); (A ")" 165 530 531 19 19 [])] # "arguments")]); (A ";" 166 531 532 19 19 [])]); (A "}" 167 541 542 20 20 [])] # "body")]); (A "}" 168 549 550 21 21 [])] # "consequence"); (A "else" 169 551 555 21 21 []); (B "block" 170 556 817 21 30 [(A "{" 171 556 557 21 21 []); (B "if_statement" 172 566 809 22 29 [(A "if" 173 566 568 22 22 []); (B "parenthesized_expression" 174 569 587 22 22 [(A "(" 175 569 570 22 22 []); (B "field_access" 176 570 586 22 22 [(B "identifier" 177 570 577 22 22 [] # "object"); (A "." 178 577 578 22 22 []); (B "identifier" 179 578 586 22 22 [] # "field")]); (A ")" 180 586 587 22 22 [])] # "condition"); (B "block" 181 588 809 22 29 [(A "{" 182 588 589 22 22 []); (B "local_variable_declaration" 183 600 645 23 23 [(B "generic_type" 184 600 613 23 23 [(B "type_identifier" 185 600 604 23 23 []); (B "type_arguments" 186 604 613 23 23 [(A "<" 187 604 605 23 23 []); (B "type_identifier" 188 605 612 23 23 []); (A ">" 189 612 613 23 23 [])])] # "type"); (B "variable_declarator" 190 614 644 23 23 [(B "identifier" 191 614 622 23 23 [] # "name"); (B "assignment_operator" 192 623 624 23 23 [(A "=" 193 623 624 23 23 [])]); (B "object_creation_expression" 194 625 644 23 23 [(A "new" 195 625 628 23 23 []); (B "generic_type" 196 629 642 23 23 [(B "type_identifier" 197 629 633 23 23 []); (B "type_arguments" 198 633 642 23 23 [(A "<" 199 633 634 23 23 []); (B "type_identifier" 200 634 641 23 23 []); (A ">" 201 641 642 23 23 [])])] # "type"); (B "argument_list" 202 642 644 23 23 [(A "(" 203 642 643 23 23 []); (A ")" 204 643 644 23 23 [])] # "arguments")] # "value")] # "declarator"); (A ";" 205 644 645 23 23 [])]); (B "enhanced_for_statement" 206 656 799 24 28 [(A "for" 207 656 659 24 24 []); (A "(" 208 660 661 24 24 []); (B "type_identifier" 209 661 668 24 24 [] # "type"); (B "identifier" 210 669 670 24 24 [] # "name"); (A ":" 211 671 672 24 24 []); (B "field_access" 212 673 684 24 24 [(B "identifier" 213 673 680 24 24 [] # "object"); (A "." 214 680 681 24 24 []); (B "identifier" 215 681 684 24 24 [] # "field")] # "value"); (A ")" 216 684 685 24 24 []); (B "block" 217 686 799 24 28 [(A "{" 218 686 687 24 24 []); (B "if_statement" 219 700 787 25 27 [(A "if" 220 700 702 25 25 []); (B "parenthesized_expression" 221 702 727 25 25 [(A "(" 222 702 703 25 25 []); (B "binary_expression" 223 703 726 25 25 [(B "field_access" 224 703 709 25 25 [(B "identifier" 225 703 704 25 25 [] # "object"); (A "." 226 704 705 25 25 []); (B "identifier" 227 705 709 25 25 [] # "field")] # "left"); (A "==" 228 710 712 25 25 [] # "operator"); (B "string_literal" 229 713 726 25 25 [] # "right")]); (A ")" 230 726 727 25 25 [])] # "condition"); (B "block" 231 728 787 25 27 [(A "{" 232 728 729 25 25 []); (B "expression_statement" 233 744 773 26 26 [(B "method_invocation" 234 744 772 26 26 [(B "identifier" 235 744 750 26 26 [] # "object"); (A "." 236 750 751 26 26 []); (B "identifier" 237 751 756 26 26 [] # "name"); (B "argument_list" 238 756 772 26 26 [(A "(" 239 756 757 26 26 []); (B "string_literal" 240 757 771 26 26 []); (A ")" 241 771 772 26 26 [])] # "arguments")]); (A ";" 242 772 773 26 26 [])]); (A "}" 243 786 787 27 27 [])] # "consequence")]); (A "}" 244 798 799 28 28 [])] # "body")]); (A "}" 245 808 809 29 29 [])] # "consequence")]); (A "}" 246 816 817 30 30 [])] # "alternative")]); (A "}" 247 822 823 31 31 [])] # "alternative")]); (A "}" 248 823 824 31 31 [])] # "consequence")]); (A "}" 249 824 825 31 31 [])])] # "body")])]).
Example prettier80_trigger1 : as_expected prettier80_trigger1_source prettier80_trigger1_tree (U "trigger myAccountTrigger on Account(before insert) {
  System.debug('Inside trigger');
  if (Trigger.isBefore) {
    if (Trigger.isDelete) {
      for (Account a : Trigger.old) {
        if (a.name != 'okToDelete') {
          a.addError('You can\'t delete this record!');
        }
      }
    } else {
      for (Account a : Trigger.new) {
        if (a.name == 'bad') {
          a.name.addError('Bad name');
        }
      }
      if (Trigger.isInsert) {
        for (Account a : Trigger.new) {
          System.debug('New');
        }
      } else {
        if (Trigger.isInsert) {
          List<Contact> contacts = new List<Contact>();
          for (Account a : Trigger.new) {
            if (a.Name == 'makeContact') {
              System.debug('Make Contact');
            }
          }
        }
      }
    }
  }
}
").
Proof. apply run_test_ok. vm_compute. reflexivity. Qed.

(* tests/prettier80/v1.in *)
Definition prettier80_v1_source : ustr := U "public class Me {
   {
        Integer i = -  1 ;
   }
}
".
Definition prettier80_v1_tree : span := (B "parser_output" 1 0 57 0 5 [(B "class_declaration" 2 0 56 0 4 [(B "modifiers" 3 0 6 0 0 [(B "modifier" 4 0 6 0 0 [(B "public" 5 0 6 0 0 [(A "public" 6 0 6 0 0 [])])])]); (A "class" 7 7 12 0 0 []); (B "identifier" 8 13 15 0 0 [] # "name"); (B "class_body" 9 16 56 0 4 [(A "{" 10 16 17 0 0 []); (B "block" 11 21 54 1 3 [(A "{" 12 21 22 1 1 []); (B "local_variable_declaration" 13 31 49 2 2 [(B "type_identifier" 14 31 38 2 2 [] # "type"); (B "variable_declarator" 15 39 47 2 2 [(B "identifier" 16 39 40 2 2 [] # "name"); (B "assignment_operator" 17 41 42 2 2 [(A "=" 18 41 42 2 2 [])]); (B "unary_expression" 19 43 47 2 2 [(A "-" 20 43 44 2 2 [] # "operator"); (B "int" 21 46 47 2 2 [] # "operand")] # "value")] # "declarator"); (A ";" 22 48 49 2 2 [])]); (A "}" 23 53 54 3 3 [])]); (A "}" 24 55 56 4 4 [])] # "body")])]).
Example prettier80_v1 : as_expected prettier80_v1_source prettier80_v1_tree (U "public class Me {
  {
    Integer i = -1;
  }
}
").
Proof. apply run_test_ok. vm_compute. reflexivity. Qed.

(* tests/prettier80/v11.in *)
Definition prettier80_v11_source : ustr := U "public class Me {
  {
       Integer i   , j 
          ,    k

    ;
  }
}
".
Definition prettier80_v11_tree : span := (B "parser_output" 1 0 76 0 8 [(B "class_declaration" 2 0 75 0 7 [(B "modifiers" 3 0 6 0 0 [(B "modifier" 4 0 6 0 0 [(B "public" 5 0 6 0 0 [(A "public" 6 0 6 0 0 [])])])]); (A "class" 7 7 12 0 0 []); (B "identifier" 8 13 15 0 0 [] # "name"); (B "class_body" 9 16 75 0 7 [(A "{" 10 16 17 0 0 []); (B "block" 11 20 73 1 6 [(A "{" 12 20 21 1 1 []); (B "local_variable_declaration" 13 29 69 2 5 [(B "type_identifier" 14 29 36 2 2 [] # "type"); (B "variable_declarator" 15 37 38 2 2 [(B "identifier" 16 37 38 2 2 [] # "name")] # "declarator"); (A "," 17 41 42 2 2 []); (B "variable_declarator" 18 43 44 2 2 [(B "identifier" 19 43 44 2 2 [] # "name")] # "declarator"); (A "," 20 56 57 3 3 []); (B "variable_declarator" 21 61 62 3 3 [(B "identifier" 22 61 62 3 3 [] # "name")] # "declarator"); (A ";" 23 68 69 5 5 [])]); (A "}" 24 72 73 6 6 [])]); (A "}" 25 74 75 7 7 [])] # "body")])]).
Example prettier80_v11 : as_expected prettier80_v11_source prettier80_v11_tree (U "public class Me {
  {
    Integer i, j, k;
  }
}
").
Proof. apply run_test_ok. vm_compute. reflexivity. Qed.

(* tests/prettier80/v12.in *)
Definition prettier80_v12_source : ustr := U "public class Me {
  {
        Integer   i   = 0 , j    , 
       k 
          = 1  

          ;
  }
}
".
Definition prettier80_v12_tree : span := (B "parser_output" 1 0 103 0 9 [(B "class_declaration" 2 0 102 0 8 [(B "modifiers" 3 0 6 0 0 [(B "modifier" 4 0 6 0 0 [(B "public" 5 0 6 0 0 [(A "public" 6 0 6 0 0 [])])])]); (A "class" 7 7 12 0 0 []); (B "identifier" 8 13 15 0 0 [] # "name"); (B "class_body" 9 16 102 0 8 [(A "{" 10 16 17 0 0 []); (B "block" 11 20 100 1 7 [(A "{" 12 20 21 1 1 []); (B "local_variable_declaration" 13 30 96 2 6 [(B "type_identifier" 14 30 37 2 2 [] # "type"); (B "variable_declarator" 15 40 47 2 2 [(B "identifier" 16 40 41 2 2 [] # "name"); (B "assignment_operator" 17 44 45 2 2 [(A "=" 18 44 45 2 2 [])]); (B "int" 19 46 47 2 2 [] # "value")] # "declarator"); (A "," 20 48 49 2 2 []); (B "variable_declarator" 21 50 51 2 2 [(B "identifier" 22 50 51 2 2 [] # "name")] # "declarator"); (A "," 23 55 56 2 2 []); (B "variable_declarator" 24 65 81 3 4 [(B "identifier" 25 65 66 3 3 [] # "name"); (B "assignment_operator" 26 78 79 4 4 [(A "=" 27 78 79 4 4 [])]); (B "int" 28 80 81 4 4 [] # "value")] # "declarator"); (A ";" 29 95 96 6 6 [])]); (A "}" 30 99 100 7 7 [])]); (A "}" 31 101 102 8 8 [])] # "body")])]).
Example prettier80_v12 : as_expected prettier80_v12_source prettier80_v12_tree (U "public class Me {
  {
    Integer i = 0, j, k = 1;
  }
}
").
Proof. apply run_test_ok. vm_compute. reflexivity. Qed.

(* tests/prettier80/v13.in *)
Definition prettier80_v13_source : ustr := U "public class Me {
  {
      String 
          v             
                        = 
                'Hello\u2019 from world\U2019';
  }
}
".
Definition prettier80_v13_tree : span := (B "parser_output" 1 0 142 0 8 [(B "class_declaration" 2 0 141 0 7 [(B "modifiers" 3 0 6 0 0 [(B "modifier" 4 0 6 0 0 [(B "public" 5 0 6 0 0 [(A "public" 6 0 6 0 0 [])])])]); (A "class" 7 7 12 0 0 []); (B "identifier" 8 13 15 0 0 [] # "name"); (B "class_body" 9 16 141 0 7 [(A "{" 10 16 17 0 0 []); (B "block" 11 20 139 1 6 [(A "{" 12 20 21 1 1 []); (B "local_variable_declaration" 13 28 135 2 5 [(B "type_identifier" 14 28 34 2 2 [] # "type"); (B "variable_declarator" 15 46 134 3 5 [(B "identifier" 16 46 47 3 3 [] # "name"); (B "assignment_operator" 17 85 86 4 4 [(A "=" 18 85 86 4 4 [])]); (B "string_literal" 19 104 134 5 5 [] # "value")] # "declarator"); (A ";" 20 134 135 5 5 [])]); (A "}" 21 138 139 6 6 [])]); (A "}" 22 140 141 7 7 [])] # "body")])]).
Example prettier80_v13 : as_expected prettier80_v13_source prettier80_v13_tree (U "public class Me {
  {
    String v = 'Hello\u2019 from world\U2019';
  }
}
").
Proof. apply run_test_ok. vm_compute. reflexivity. Qed.

(* tests/prettier80/v2.in *)
Definition prettier80_v2_source : ustr := U "public class Me {
   {
      List
    <  Integer > ints = new List    <
        Integer
          >  ( 
          )    ;
   }
}
".
Definition prettier80_v2_tree : span := (B "parser_output" 1 0 128 0 9 [(B "class_declaration" 2 0 127 0 8 [(B "modifiers" 3 0 6 0 0 [(B "modifier" 4 0 6 0 0 [(B "public" 5 0 6 0 0 [(A "public" 6 0 6 0 0 [])])])]); (A "class" 7 7 12 0 0 []); (B "identifier" 8 13 15 0 0 [] # "name"); (B "class_body" 9 16 127 0 8 [(A "{" 10 16 17 0 0 []); (B "block" 11 21 125 1 7 [(A "{" 12 21 22 1 1 []); (B "local_variable_declaration" 13 29 120 2 6 [(B "generic_type" 14 29 50 2 3 [(B "type_identifier" 15 29 33 2 2 []); (B "type_arguments" 16 38 50 3 3 [(A "<" 17 38 39 3 3 []); (B "type_identifier" 18 41 48 3 3 []); (A ">" 19 49 50 3 3 [])])] # "type"); (B "variable_declarator" 20 51 115 3 6 [(B "identifier" 21 51 55 3 3 [] # "name"); (B "assignment_operator" 22 56 57 3 3 [(A "=" 23 56 57 3 3 [])]); (B "object_creation_expression" 24 58 115 3 6 [(A "new" 25 58 61 3 3 []); (B "generic_type" 26 62 99 3 5 [(B "type_identifier" 27 62 66 3 3 []); (B "type_arguments" 28 70 99 3 5 [(A "<" 29 70 71 3 3 []); (B "type_identifier" 30 80 87 4 4 []); (A ">" 31 98 99 5 5 [])])] # "type"); (B "argument_list" 32 101 115 5 6 [(A "(" 33 101 102 5 5 []); (A ")" 34 114 115 6 6 [])] # "arguments")] # "value")] # "declarator"); (A ";" 35 119 120 6 6 [])]); (A "}" 36 124 125 7 7 [])]); (A "}" 37 126 127 8 8 [])] # "body")])]).
Example prettier80_v2 : as_expected prettier80_v2_source prettier80_v2_tree (U "public class Me {
  {
    List<Integer> ints = new List<Integer>();
  }
}
").
Proof. apply run_test_ok. vm_compute. reflexivity. Qed.

(* tests/prettier80/v3.in *)
Definition prettier80_v3_source : ustr := U "public class Me {
  {
    List<Integer> ints = new List<Integer>{ 1, 2, 3 };
  }
}
".
Definition prettier80_v3_tree : span := (B "parser_output" 1 0 83 0 5 [(B "class_declaration" 2 0 82 0 4 [(B "modifiers" 3 0 6 0 0 [(B "modifier" 4 0 6 0 0 [(B "public" 5 0 6 0 0 [(A "public" 6 0 6 0 0 [])])])]); (A "class" 7 7 12 0 0 []); (B "identifier" 8 13 15 0 0 [] # "name"); (B "class_body" 9 16 82 0 4 [(A "{" 10 16 17 0 0 []); (B "block" 11 20 80 1 3 [(A "{" 12 20 21 1 1 []); (B "local_variable_declaration" 13 26 76 2 2 [(B "generic_type" 14 26 39 2 2 [(B "type_identifier" 15 26 30 2 2 []); (B "type_arguments" 16 30 39 2 2 [(A "<" 17 30 31 2 2 []); (B "type_identifier" 18 31 38 2 2 []); (A ">" 19 38 39 2 2 [])])] # "type"); (B "variable_declarator" 20 40 75 2 2 [(B "identifier" 21 40 44 2 2 [] # "name"); (B "assignment_operator" 22 45 46 2 2 [(A "=" 23 45 46 2 2 [])]); (B "array_creation_expression" 24 47 75 2 2 [(A "new" 25 47 50 2 2 []); (B "generic_type" 26 51 64 2 2 [(B "type_identifier" 27 51 55 2 2 []); (B "type_arguments" 28 55 64 2 2 [(A "<" 29 55 56 2 2 []); (B "type_identifier" 30 56 63 2 2 []); (A ">" 31 63 64 2 2 [])])] # "type"); (B "array_initializer" 32 64 75 2 2 [(A "{" 33 64 65 2 2 []); (B "int" 34 66 67 2 2 []); (A "," 35 67 68 2 2 []); (B "int" 36 69 70 2 2 []); (A "," 37 70 71 2 2 []); (B "int" 38 72 73 2 2 []); (A "}" 39 74 75 2 2 [])] # "value")] # "value")] # "declarator"); (A ";" 40 75 76 2 2 [])]); (A "}" 41 79 80 3 3 [])]); (A "}" 42 81 82 4 4 [])] # "body")])]).
Example prettier80_v3 : as_expected prettier80_v3_source prettier80_v3_tree (U "public class Me {
  {
    List<Integer> ints = new List<Integer>{ 1, 2, 3 };
  }
}
").
Proof. apply run_test_ok. vm_compute. reflexivity. Qed.

(* tests/prettier80/v4.in *)
Definition prettier80_v4_source : ustr := U "public class Me {
  {
        List
          <  Integer
      > ints = 
         new            Integer   [
                   0
         ]

         ;
  }
}
".
Definition prettier80_v4_tree : span := (B "parser_output" 1 0 158 0 12 [(B "class_declaration" 2 0 157 0 11 [(B "modifiers" 3 0 6 0 0 [(B "modifier" 4 0 6 0 0 [(B "public" 5 0 6 0 0 [(A "public" 6 0 6 0 0 [])])])]); (A "class" 7 7 12 0 0 []); (B "identifier" 8 13 15 0 0 [] # "name"); (B "class_body" 9 16 157 0 11 [(A "{" 10 16 17 0 0 []); (B "block" 11 20 155 1 10 [(A "{" 12 20 21 1 1 []); (B "local_variable_declaration" 13 30 151 2 9 [(B "generic_type" 14 30 63 2 4 [(B "type_identifier" 15 30 34 2 2 []); (B "type_arguments" 16 45 63 3 4 [(A "<" 17 45 46 3 3 []); (B "type_identifier" 18 48 55 3 3 []); (A ">" 19 62 63 4 4 [])])] # "type"); (B "variable_declarator" 20 64 139 4 7 [(B "identifier" 21 64 68 4 4 [] # "name"); (B "assignment_operator" 22 69 70 4 4 [(A "=" 23 69 70 4 4 [])]); (B "array_creation_expression" 24 81 139 5 7 [(A "new" 25 81 84 5 5 []); (B "type_identifier" 26 96 103 5 5 [] # "type"); (B "dimensions_expr" 27 106 139 5 7 [(A "[" 28 106 107 5 5 []); (B "int" 29 127 128 6 6 []); (A "]" 30 138 139 7 7 [])])] # "value")] # "declarator"); (A ";" 31 150 151 9 9 [])]); (A "}" 32 154 155 10 10 [])]); (A "}" 33 156 157 11 11 [])] # "body")])]).
Example prettier80_v4 : as_expected prettier80_v4_source prettier80_v4_tree (U "public class Me {
  {
    List<Integer> ints = new Integer[0];
  }
}
").
Proof. apply run_test_ok. vm_compute. reflexivity. Qed.

(* tests/prettier80/v5.in *)
Definition prettier80_v5_source : ustr := U "public class Me {
    {
      List 
      <Integer
    > ints   = 
      new 
      List  <Integer  >
      { 1
      ,   2, 3  }
      ;
  }
}
".
Definition prettier80_v5_tree : span := (B "parser_output" 1 0 144 0 12 [(B "class_declaration" 2 0 143 0 11 [(B "modifiers" 3 0 6 0 0 [(B "modifier" 4 0 6 0 0 [(B "public" 5 0 6 0 0 [(A "public" 6 0 6 0 0 [])])])]); (A "class" 7 7 12 0 0 []); (B "identifier" 8 13 15 0 0 [] # "name"); (B "class_body" 9 16 143 0 11 [(A "{" 10 16 17 0 0 []); (B "block" 11 22 141 1 10 [(A "{" 12 22 23 1 1 []); (B "local_variable_declaration" 13 30 137 2 9 [(B "generic_type" 14 30 56 2 4 [(B "type_identifier" 15 30 34 2 2 []); (B "type_arguments" 16 42 56 3 4 [(A "<" 17 42 43 3 3 []); (B "type_identifier" 18 43 50 3 3 []); (A ">" 19 55 56 4 4 [])])] # "type"); (B "variable_declarator" 20 57 129 4 8 [(B "identifier" 21 57 61 4 4 [] # "name"); (B "assignment_operator" 22 64 65 4 4 [(A "=" 23 64 65 4 4 [])]); (B "array_creation_expression" 24 73 129 5 8 [(A "new" 25 73 76 5 5 []); (B "generic_type" 26 84 101 6 6 [(B "type_identifier" 27 84 88 6 6 []); (B "type_arguments" 28 90 101 6 6 [(A "<" 29 90 91 6 6 []); (B "type_identifier" 30 91 98 6 6 []); (A ">" 31 100 101 6 6 [])])] # "type"); (B "array_initializer" 32 108 129 7 8 [(A "{" 33 108 109 7 7 []); (B "int" 34 110 111 7 7 []); (A "," 35 118 119 8 8 []); (B "int" 36 122 123 8 8 []); (A "," 37 123 124 8 8 []); (B "int" 38 125 126 8 8 []); (A "}" 39 128 129 8 8 [])] # "value")] # "value")] # "declarator"); (A ";" 40 136 137 9 9 [])]); (A "}" 41 140 141 10 10 [])]); (A "}" 42 142 143 11 11 [])] # "body")])]).
Example prettier80_v5 : as_expected prettier80_v5_source prettier80_v5_tree (U "public class Me {
  {
    List<Integer> ints = new List<Integer>{ 1, 2, 3 };
  }
}
").
Proof. apply run_test_ok. vm_compute. reflexivity. Qed.

(* tests/prettier80/v6.in *)
Definition prettier80_v6_source : ustr := U "public class Me {
  {
     Integer [] ints   =     new 
    Integer [
    0
    ]   ;
  }
}
".
Definition prettier80_v6_tree : span := (B "parser_output" 1 0 92 0 8 [(B "class_declaration" 2 0 91 0 7 [(B "modifiers" 3 0 6 0 0 [(B "modifier" 4 0 6 0 0 [(B "public" 5 0 6 0 0 [(A "public" 6 0 6 0 0 [])])])]); (A "class" 7 7 12 0 0 []); (B "identifier" 8 13 15 0 0 [] # "name"); (B "class_body" 9 16 91 0 7 [(A "{" 10 16 17 0 0 []); (B "block" 11 20 89 1 6 [(A "{" 12 20 21 1 1 []); (B "local_variable_declaration" 13 27 85 2 5 [(B "array_type" 14 27 37 2 2 [(B "type_identifier" 15 27 34 2 2 [] # "element"); (B "dimensions" 16 35 37 2 2 [(A "[" 17 35 36 2 2 []); (A "]" 18 36 37 2 2 [])] # "dimensions")] # "type"); (B "variable_declarator" 19 38 81 2 5 [(B "identifier" 20 38 42 2 2 [] # "name"); (B "assignment_operator" 21 45 46 2 2 [(A "=" 22 45 46 2 2 [])]); (B "array_creation_expression" 23 51 81 2 5 [(A "new" 24 51 54 2 2 []); (B "type_identifier" 25 60 67 3 3 [] # "type"); (B "dimensions_expr" 26 68 81 3 5 [(A "[" 27 68 69 3 3 []); (B "int" 28 74 75 4 4 []); (A "]" 29 80 81 5 5 [])])] # "value")] # "declarator"); (A ";" 30 84 85 5 5 [])]); (A "}" 31 88 89 6 6 [])]); (A "}" 32 90 91 7 7 [])] # "body")])]).
Example prettier80_v6 : as_expected prettier80_v6_source prettier80_v6_tree (U "public class Me {
  {
    Integer[] ints = new Integer[0];
  }
}
").
Proof. apply run_test_ok. vm_compute. reflexivity. Qed.

(* tests/prettier80/v7.in *)
Definition prettier80_v7_source : ustr := U "public class Me {
  {
       Set  <
       Integer  > ints =     new 
       Set <   Integer> ( )
          ;
  }
}
".
Definition prettier80_v7_tree : span := (B "parser_output" 1 0 116 0 8 [(B "class_declaration" 2 0 115 0 7 [(B "modifiers" 3 0 6 0 0 [(B "modifier" 4 0 6 0 0 [(B "public" 5 0 6 0 0 [(A "public" 6 0 6 0 0 [])])])]); (A "class" 7 7 12 0 0 []); (B "identifier" 8 13 15 0 0 [] # "name"); (B "class_body" 9 16 115 0 7 [(A "{" 10 16 17 0 0 []); (B "block" 11 20 113 1 6 [(A "{" 12 20 21 1 1 []); (B "local_variable_declaration" 13 29 109 2 5 [(B "generic_type" 14 29 53 2 3 [(B "type_identifier" 15 29 32 2 2 []); (B "type_arguments" 16 34 53 2 3 [(A "<" 17 34 35 2 2 []); (B "type_identifier" 18 43 50 3 3 []); (A ">" 19 52 53 3 3 [])])] # "type"); (B "variable_declarator" 20 54 97 3 4 [(B "identifier" 21 54 58 3 3 [] # "name"); (B "assignment_operator" 22 59 60 3 3 [(A "=" 23 59 60 3 3 [])]); (B "object_creation_expression" 24 65 97 3 4 [(A "new" 25 65 68 3 3 []); (B "generic_type" 26 77 93 4 4 [(B "type_identifier" 27 77 80 4 4 []); (B "type_arguments" 28 81 93 4 4 [(A "<" 29 81 82 4 4 []); (B "type_identifier" 30 85 92 4 4 []); (A ">" 31 92 93 4 4 [])])] # "type"); (B "argument_list" 32 94 97 4 4 [(A "(" 33 94 95 4 4 []); (A ")" 34 96 97 4 4 [])] # "arguments")] # "value")] # "declarator"); (A ";" 35 108 109 5 5 [])]); (A "}" 36 112 113 6 6 [])]); (A "}" 37 114 115 7 7 [])] # "body")])]).
Example prettier80_v7 : as_expected prettier80_v7_source prettier80_v7_tree (U "public class Me {
  {
    Set<Integer> ints = new Set<Integer>();
  }
}
").
Proof. apply run_test_ok. vm_compute. reflexivity. Qed.

(* tests/prettier80/v8.in *)
Definition prettier80_v8_source : ustr := U "public class Me {
  {
    Set < Integer> ints   = new 
 Set<Integer> { 1,    2,  3} ;
  }
}
".
Definition prettier80_v8_tree : span := (B "parser_output" 1 0 92 0 6 [(B "class_declaration" 2 0 91 0 5 [(B "modifiers" 3 0 6 0 0 [(B "modifier" 4 0 6 0 0 [(B "public" 5 0 6 0 0 [(A "public" 6 0 6 0 0 [])])])]); (A "class" 7 7 12 0 0 []); (B "identifier" 8 13 15 0 0 [] # "name"); (B "class_body" 9 16 91 0 5 [(A "{" 10 16 17 0 0 []); (B "block" 11 20 89 1 4 [(A "{" 12 20 21 1 1 []); (B "local_variable_declaration" 13 26 85 2 3 [(B "generic_type" 14 26 40 2 2 [(B "type_identifier" 15 26 29 2 2 []); (B "type_arguments" 16 30 40 2 2 [(A "<" 17 30 31 2 2 []); (B "type_identifier" 18 32 39 2 2 []); (A ">" 19 39 40 2 2 [])])] # "type"); (B "variable_declarator" 20 41 83 2 3 [(B "identifier" 21 41 45 2 2 [] # "name"); (B "assignment_operator" 22 48 49 2 2 [(A "=" 23 48 49 2 2 [])]); (B "array_creation_expression" 24 50 83 2 3 [(A "new" 25 50 53 2 2 []); (B "generic_type" 26 56 68 3 3 [(B "type_identifier" 27 56 59 3 3 []); (B "type_arguments" 28 59 68 3 3 [(A "<" 29 59 60 3 3 []); (B "type_identifier" 30 60 67 3 3 []); (A ">" 31 67 68 3 3 [])])] # "type"); (B "array_initializer" 32 69 83 3 3 [(A "{" 33 69 70 3 3 []); (B "int" 34 71 72 3 3 []); (A "," 35 72 73 3 3 []); (B "int" 36 77 78 3 3 []); (A "," 37 78 79 3 3 []); (B "int" 38 81 82 3 3 []); (A "}" 39 82 83 3 3 [])] # "value")] # "value")] # "declarator"); (A ";" 40 84 85 3 3 [])]); (A "}" 41 88 89 4 4 [])]); (A "}" 42 90 91 5 5 [])] # "body")])]).
Example prettier80_v8 : as_expected prettier80_v8_source prettier80_v8_tree (U "public class Me {
  {
    Set<Integer> ints = new Set<Integer>{ 1, 2, 3 };
  }
}
").
Proof. apply run_test_ok. vm_compute. reflexivity. Qed.

(* tests/prettier80/v9.in *)
Definition prettier80_v9_source : ustr := U "public class Me {
  {
    Map  < String, Integer> intsBymap =  new Map
    <     String, Integer > (   ) ;
  }
}
".
Definition prettier80_v9_tree : span := (B "parser_output" 1 0 113 0 6 [(B "class_declaration" 2 0 112 0 5 [(B "modifiers" 3 0 6 0 0 [(B "modifier" 4 0 6 0 0 [(B "public" 5 0 6 0 0 [(A "public" 6 0 6 0 0 [])])])]); (A "class" 7 7 12 0 0 []); (B "identifier" 8 13 15 0 0 [] # "name"); (B "class_body" 9 16 112 0 5 [(A "{" 10 16 17 0 0 []); (B "block" 11 20 110 1 4 [(A "{" 12 20 21 1 1 []); (B "local_variable_declaration" 13 26 106 2 3 [(B "generic_type" 14 26 49 2 2 [(B "type_identifier" 15 26 29 2 2 []); (B "type_arguments" 16 31 49 2 2 [(A "<" 17 31 32 2 2 []); (B "type_identifier" 18 33 39 2 2 []); (A "," 19 39 40 2 2 []); (B "type_identifier" 20 41 48 2 2 []); (A ">" 21 48 49 2 2 [])])] # "type"); (B "variable_declarator" 22 50 104 2 3 [(B "identifier" 23 50 59 2 2 [] # "name"); (B "assignment_operator" 24 60 61 2 2 [(A "=" 25 60 61 2 2 [])]); (B "object_creation_expression" 26 63 104 2 3 [(A "new" 27 63 66 2 2 []); (B "generic_type" 28 67 98 2 3 [(B "type_identifier" 29 67 70 2 2 []); (B "type_arguments" 30 75 98 3 3 [(A "<" 31 75 76 3 3 []); (B "type_identifier" 32 81 87 3 3 []); (A "," 33 87 88 3 3 []); (B "type_identifier" 34 89 96 3 3 []); (A ">" 35 97 98 3 3 [])])] # "type"); (B "argument_list" 36 99 104 3 3 [(A "(" 37 99 100 3 3 []); (A ")" 38 103 104 3 3 [])] # "arguments")] # "value")] # "declarator"); (A ";" 39 105 106 3 3 [])]); (A "}" 40 109 110 4 4 [])]); (A "}" 41 111 112 5 5 [])] # "body")])]).
Example prettier80_v9 : as_expected prettier80_v9_source prettier80_v9_tree (U "public class Me {
  {
    Map<String, Integer> intsBymap = new Map<String, Integer>();
  }
}
").
Proof. apply run_test_ok. vm_compute. reflexivity. Qed.

(* tests/prettier80/variableDeclarator.in *)
Definition prettier80_variableDeclarator_source : ustr := U "class Me {
  Integer testVal = 1, anotherVal = 0;

    void method1() {
    Integer testVal = 1, anotherVal = 0;
  }
}
".
Definition prettier80_variableDeclarator_tree : span := (B "parser_output" 1 0 119 0 7 [(B "class_declaration" 2 0 118 0 6 [(A "class" 3 0 5 0 0 []); (B "identifier" 4 6 8 0 0 [] # "name"); (B "class_body" 5 9 118 0 6 [(A "{" 6 9 10 0 0 []); (B "field_declaration" 7 13 49 1 1 [(B "type_identifier" 8 13 20 1 1 [] # "type"); (B "variable_declarator" 9 21 32 1 1 [(B "identifier" 10 21 28 1 1 [] # "name"); (B "assignment_operator" 11 29 30 1 1 [(A "=" 12 29 30 1 1 [])]); (B "int" 13 31 32 1 1 [] # "value")] # "declarator"); (A "," 14 32 33 1 1 []); (B "variable_declarator" 15 34 48 1 1 [(B "identifier" 16 34 44 1 1 [] # "name"); (B "assignment_operator" 17 45 46 1 1 [(A "=" 18 45 46 1 1 [])]); (B "int" 19 47 48 1 1 [] # "value")] # "declarator"); (A ";" 20 48 49 1 1 [])]); (B "method_declaration" 21 55 116 3 5 [(B "void_type" 22 55 59 3 3 [] # "type"); (B "identifier" 23 60 67 3 3 [] # "name"); (B "formal_parameters" 24 67 69 3 3 [(A "(" 25 67 68 3 3 []); (A ")" 26 68 69 3 3 [])] # "parameters"); (B "block" 27 70 116 3 5 [(A "{" 28 70 71 3 3 []); (B "local_variable_declaration" 29 76 112 4 4 [(B "type_identifier" 30 76 83 4 4 [] # "type"); (B "variable_declarator" 31 84 95 4 4 [(B "identifier" 32 84 91 4 4 [] # "name"); (B "assignment_operator" 33 92 93 4 4 [(A "=" 34 92 93 4 4 [])]); (B "int" 35 94 95 4 4 [] # "value")] # "declarator"); (A "," 36 95 96 4 4 []); (B "variable_declarator" 37 97 111 4 4 [(B "identifier" 38 97 107 4 4 [] # "name"); (B "assignment_operator" 39 108 109 4 4 [(A "=" 40 108 109 4 4 [])]); (B "int" 41 110 111 4 4 [] # "value")] # "declarator"); (A ";" 42 111 112 4 4 [])]); (A "}" 43 115 116 5 5 [])] # "body")]); (A "}" 44 117 118 6 6 [])] # "body")])]).
Example prettier80_variableDeclarator : as_expected prettier80_variableDeclarator_source prettier80_variableDeclarator_tree (U "class Me {
  Integer testVal = 1, anotherVal = 0;

  void method1() {
    Integer testVal = 1, anotherVal = 0;
  }
}
").
Proof. apply run_test_ok. vm_compute. reflexivity. Qed.

(* tests/prettier80/webservice.in *)
Definition prettier80_webservice_source : ustr := U "class A {
  webService static decimal c() {
  }
}
".
Definition prettier80_webservice_tree : span := (B "parser_output" 1 0 50 0 4 [(B "class_declaration" 2 0 49 0 3 [(A "class" 3 0 5 0 0 []); (B "identifier" 4 6 7 0 0 [] # "name"); (B "class_body" 5 8 49 0 3 [(A "{" 6 8 9 0 0 []); (B "method_declaration" 7 12 47 1 2 [(B "modifiers" 8 12 29 1 1 [(B "modifier" 9 12 22 1 1 [(B "webservice" 10 12 22 1 1 [(A "webService" 11 12 22 1 1 [])])]); (B "modifier" 12 23 29 1 1 [(B "static" 13 23 29 1 1 [(A "static" 14 23 29 1 1 [])])])]); (B "type_identifier" 15 30 37 1 1 [] # "type"); (B "identifier" 16 38 39 1 1 [] # "name"); (B "formal_parameters" 17 39 41 1 1 [(A "(" 18 39 40 1 1 []); (A ")" 19 40 41 1 1 [])] # "parameters"); (B "block" 20 42 47 1 2 [(A "{" 21 42 43 1 1 []); (A "}" 22 46 47 2 2 [])] # "body")]); (A "}" 23 48 49 3 3 [])] # "body")])]).
Example prettier80_webservice : as_expected prettier80_webservice_source prettier80_webservice_tree (U "class A {
  webService static decimal c() {
  }
}
").
Proof. apply run_test_ok. vm_compute. reflexivity. Qed.

(* tests/prettier80/while1.in *)
Definition prettier80_while1_source : ustr := U "class A {{
    while (true);
    }
  }
".
Definition prettier80_while1_tree : span := (B "parser_output" 1 0 39 0 4 [(B "class_declaration" 2 0 38 0 3 [(A "class" 3 0 5 0 0 []); (B "identifier" 4 6 7 0 0 [] # "name"); (B "class_body" 5 8 38 0 3 [(A "{" 6 8 9 0 0 []); (B "block" 7 9 34 0 2 [(A "{" 8 9 10 0 0 []); (B "while_statement" 9 15 28 1 1 [(A "while" 10 15 20 1 1 []); (B "parenthesized_expression" 11 21 27 1 1 [(A "(" 12 21 22 1 1 []); (B "boolean" 13 22 26 1 1 [(A "true" 14 22 26 1 1 [])]); (A ")" 15 26 27 1 1 [])] # "condition"); (A ";" 16 27 28 1 1 [] # "body")]); (A "}" 17 33 34 2 2 [])]); (A "}" 18 37 38 3 3 [])] # "body")])]).
Example prettier80_while1 : as_expected prettier80_while1_source prettier80_while1_tree (U "class A {
  {
    while (true);
  }
}
").
Proof. apply run_test_ok. vm_compute. reflexivity. Qed.

(* tests/prettier80/wrap_field_declar.in *)
Definition prettier80_wrap_field_declar_source : ustr := U "class MeClass {

public String aaaaaa, bbbbbbbb, cccccc, dddd, eeeeee, ffffff = 'a long good string';

}

".
Definition prettier80_wrap_field_declar_tree : span := (B "parser_output" 1 0 106 0 6 [(B "class_declaration" 2 0 104 0 4 [(A "class" 3 0 5 0 0 []); (B "identifier" 4 6 13 0 0 [] # "name"); (B "class_body" 5 14 104 0 4 [(A "{" 6 14 15 0 0 []); (B "field_declaration" 7 17 101 2 2 [(B "modifiers" 8 17 23 2 2 [(B "modifier" 9 17 23 2 2 [(B "public" 10 17 23 2 2 [(A "public" 11 17 23 2 2 [])])])]); (B "type_identifier" 12 24 30 2 2 [] # "type"); (B "variable_declarator" 13 31 37 2 2 [(B "identifier" 14 31 37 2 2 [] # "name")] # "declarator"); (A "," 15 37 38 2 2 []); (B "variable_declarator" 16 39 47 2 2 [(B "identifier" 17 39 47 2 2 [] # "name")] # "declarator"); (A "," 18 47 48 2 2 []); (B "variable_declarator" 19 49 55 2 2 [(B "identifier" 20 49 55 2 2 [] # "name")] # "declarator"); (A "," 21 55 56 2 2 []); (B "variable_declarator" 22 57 61 2 2 [(B "identifier" 23 57 61 2 2 [] # "name")] # "declarator"); (A "," 24 61 62 2 2 []); (B "variable_declarator" 25 63 69 2 2 [(B "identifier" 26 63 69 2 2 [] # "name")] # "declarator"); (A "," 27 69 70 2 2 []); (B "variable_declarator" 28 71 100 2 2 [(B "identifier" 29 71 77 2 2 [] # "name"); (B "assignment_operator" 30 78 79 2 2 [(A "=" 31 78 79 2 2 [])]); (B "string_literal" 32 80 100 2 2 [] # "value")] # "declarator"); (A ";" 33 100 101 2 2 [])]); (A "}" 34 103 104 4 4 [])] # "body")])]).
Example prettier80_wrap_field_declar : as_expected prettier80_wrap_field_declar_source prettier80_wrap_field_declar_tree (U "class MeClass {
  public String aaaaaa,
    bbbbbbbb,
    cccccc,
    dddd,
    eeeeee,
    ffffff = 'a long good string';
}
").
Proof. apply run_test_ok. vm_compute. reflexivity. Qed.

(* tests/prettier80/wrap_local_variable_declar.in *)
Definition prettier80_wrap_local_variable_declar_source : ustr := U "class MeClass {
  {
    String aaaaaa, bbbbbbbb, cccccc, dddd, eeeeee, ffffff = 'a long good string';
  }
}
".
Definition prettier80_wrap_local_variable_declar_tree : span := (B "parser_output" 1 0 108 0 5 [(B "class_declaration" 2 0 107 0 4 [(A "class" 3 0 5 0 0 []); (B "identifier" 4 6 13 0 0 [] # "name"); (B "class_body" 5 14 107 0 4 [(A "{" 6 14 15 0 0 []); (B "block" 7 18 105 1 3 [(A "{" 8 18 19 1 1 []); (B "local_variable_declaration" 9 24 101 2 2 [(B "type_identifier" 10 24 30 2 2 [] # "type"); (B "variable_declarator" 11 31 37 2 2 [(B "identifier" 12 31 37 2 2 [] # "name")] # "declarator"); (A "," 13 37 38 2 2 []); (B "variable_declarator" 14 39 47 2 2 [(B "identifier" 15 39 47 2 2 [] # "name")] # "declarator"); (A "," 16 47 48 2 2 []); (B "variable_declarator" 17 49 55 2 2 [(B "identifier" 18 49 55 2 2 [] # "name")] # "declarator"); (A "," 19 55 56 2 2 []); (B "variable_declarator" 20 57 61 2 2 [(B "identifier" 21 57 61 2 2 [] # "name")] # "declarator"); (A "," 22 61 62 2 2 []); (B "variable_declarator" 23 63 69 2 2 [(B "identifier" 24 63 69 2 2 [] # "name")] # "declarator"); (A "," 25 69 70 2 2 []); (B "variable_declarator" 26 71 100 2 2 [(B "identifier" 27 71 77 2 2 [] # "name"); (B "assignment_operator" 28 78 79 2 2 [(A "=" 29 78 79 2 2 [])]); (B "string_literal" 30 80 100 2 2 [] # "value")] # "declarator"); (A ";" 31 100 101 2 2 [])]); (A "}" 32 104 105 3 3 [])]); (A "}" 33 106 107 4 4 [])] # "body")])]).
Example prettier80_wrap_local_variable_declar : as_expected prettier80_wrap_local_variable_declar_source prettier80_wrap_local_variable_declar_tree (U "class MeClass {
  {
    String aaaaaa,
      bbbbbbbb,
      cccccc,
      dddd,
      eeeeee,
      ffffff = 'a long good string';
  }
}
").
Proof. apply run_test_ok. vm_compute. reflexivity. Qed.

(* the trees of this file *)
Definition trees : list node :=
  [grow 0 prettier80_sw2_source prettier80_sw2_tree;
   grow 0 prettier80_sw3_source prettier80_sw3_tree;
   grow 0 prettier80_sw4_source prettier80_sw4_tree;
   grow 0 prettier80_sw5_source prettier80_sw5_tree;
   grow 0 prettier80_sw6_source prettier80_sw6_tree;
   grow 0 prettier80_trigger1_source prettier80_trigger1_tree;
   grow 0 prettier80_v1_source prettier80_v1_tree;
   grow 0 prettier80_v11_source prettier80_v11_tree;
   grow 0 prettier80_v12_source prettier80_v12_tree;
   grow 0 prettier80_v13_source prettier80_v13_tree;
   grow 0 prettier80_v2_source prettier80_v2_tree;
   grow 0 prettier80_v3_source prettier80_v3_tree;
   grow 0 prettier80_v4_source prettier80_v4_tree;
   grow 0 prettier80_v5_source prettier80_v5_tree;
   grow 0 prettier80_v6_source prettier80_v6_tree;
   grow 0 prettier80_v7_source prettier80_v7_tree;
   grow 0 prettier80_v8_source prettier80_v8_tree;
   grow 0 prettier80_v9_source prettier80_v9_tree;
   grow 0 prettier80_variableDeclarator_source prettier80_variableDeclarator_tree;
   grow 0 prettier80_webservice_source prettier80_webservice_tree;
   grow 0 prettier80_while1_source prettier80_while1_tree;
   grow 0 prettier80_wrap_field_declar_source prettier80_wrap_field_declar_tree;
   grow 0 prettier80_wrap_local_variable_declar_source prettier80_wrap_local_variable_declar_tree].
