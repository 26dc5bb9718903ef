(* Written by conformance/gen.py. Each Example is one test of the project: the source is the text
   of the .in file named above it, the tree is the one conformance/apex.py reads from that text, and
   the expected text is the .cls file beside it. tests/test.rs runs the same comparison. *)
From Coq Require Import List String NArith.
From Verif Require Import Base Cst ConfTrees.
Import ListNotations.
Local Open Scope string_scope.
Local Open Scope list_scope.

(* tests/static/DmlClass.in *)
Definition static_DmlClass_source : ustr := U "class DMLClass {
  void insertTest() {
    Account account = new Account(Name='Acme');
    Account[] account = new List<Account>{
      new Account(Name = 'Inner Acme One'),
      new Account(Name = 'Inner Acme Two')
    };
    insert account;
    insert accounts;
    insert new Account(Name='Acme One');
    insert new List<Account>{
      new Account(Name = 'Inner Acme Three'),
      new Account(Name = 'Inner Acme Four')
    };
    insert as user account;
    insert as system account;
  }
  void updateTest() {
    Id accountId = [SELECT Id FROM Account LIMIT 1].Id;
    Account account = new Account(Id = accountId, Name = 'Acme');
    Account[] account = new List<Account>{
      new Account(Id = accountId, Name = 'Inner Acme One'),
      new Account(Id = accountId, Name = 'Inner Acme Two')
    };
    update account;
    update accounts;
    update new Account(Id = accountId, Name='Acme One');
    update new List<Account>{
      new Account(Id = accountId, Name = 'Inner Acme Three'),
      new Account(Id = accountId, Name = 'Inner Acme Four')
    };
    update as user account;
    update as system account;
  }
  void upsertWithoutOptFieldTest() {
    Id accountId = [SELECT Id FROM Account LIMIT 1].Id;
    Account account = new Account(Id = accountId, Name = 'Acme');
    Account[] account = new List<Account>{
      new Account(Name = 'Inner Acme One'),
      new Account(Id = accountId, Name = 'Inner Acme Two')
    };
    upsert account;
    upsert accounts;
    upsert new Account(Id = accountId, Name='Acme One');
    upsert new List<Account>{
      new Account(Name = 'Inner Acme Three'),
      new Account(Id = accountId, Name = 'Inner Acme Four')
    };
    upsert as user account;
    upsert as system account;
  }
  void upsertWithOptFieldTest() {
    Id accountId = [SELECT Id FROM Account LIMIT 1].Id;
    Account account = new Account(Id = accountId, Name = 'Acme', Description='Test Description');
    Account[] account = new List<Account>{
      new Account(Name = 'Inner Acme One'),
      new Account(Id = accountId, Name = 'Inner Acme Two')
    };
    upsert account Account.Fields.External_Id__c;
    upsert accounts Account.Field.External_Id__c;
    upsert new Account(Id = accountId, Name='Acme One') Account.Fields.External_Id__c;
    upsert new List<Account>{
      new Account(Name = 'Inner Acme Three'),
      new Account(Id = accountId, Name = 'Inner Acme Four')
    } Account.Fields.External_Id__c;
  }
  void deleteTest() {
    Id accountId = [SELECT Id FROM Account LIMIT 1].Id;
    Account account = new Account(Id = accountId, Name = 'Acme');
    Account[] account = new List<Account>{
      new Account(Id = accountId, Name = 'Inner Acme One'),
      new Account(Id = accountId, Name = 'Inner Acme Two')
    };
    delete account;
    delete accounts;
    delete new Account(Id = accountId, Name='Acme One');
    delete new List<Account>{
      new Account(Id = accountId, Name = 'Inner Acme Three'),
      new Account(Id = accountId, Name = 'Inner Acme Four')
    };
    delete as user account;
    delete as system account;
  }
  void undeleteTest() {
    Id accountId = [SELECT Id FROM Account LIMIT 1 ALL ROWS].Id;
    Id[] accountIds = new List<Id>{accountId};
    Account account = new Account(Id = accountId, Name = 'Acme');
    Account[] account = new List<Account>{
      new Account(Id = accountId, Name = 'Inner Acme One'),
      new Account(Id = accountId, Name = 'Inner Acme Two')
    };
    undelete account;
    undelete accountId;
    undelete accounts;
    undelete accountIds;
    undelete new Account(Id = accountId, Name='Acme One');
    undelete new List<Account>{
      new Account(Id = accountId, Name = 'Inner Acme Three'),
      new Account(Id = accountId, Name = 'Inner Acme Four')
    };
    undelete as user account;
    undelete as system account;
  }
  void mergeTest() {
    Id accountId = [SELECT Id FROM Account LIMIT 1].Id;
    Id[] accountIds = new List<Id>{accountId};
    Account account = new Account(Id = accountId, Name = 'Acme');
    Account anotherAccount = new Account(Id = accountId, Name = 'Another Acme');
    Account[] account = new List<Account>{
      new Account(Id = accountId, Name = 'Inner Acme One'),
      new Account(Id = accountId, Name = 'Inner Acme Two')
    };
    merge account anotherAccount;
    merge account accounts;
    merge account accountId;
    merge account accountIds;
    merge as user account accountId;
    merge as system account accountIds;

    merge new Account(Id = accountId, Name = 'Acme One') new Account(Id = accountId, Name = 'Acme Two');
    merge new Account(Id = accountId, Name = 'Acme One') new List<Account>{new Account(Id = accountId, Name = 'Acme Two')};
    merge new Account(Id = accountId, Name = 'Acme One') '0010B00001kL7i0QAC';
    merge new Account(Id = accountId, Name = 'Acme One') new List<Id>{'0010B00001kL7i0QAC'};
  }
}
".
Definition static_DmlClass_tree : span := (B "parser_output" 1 0 4876 0 125 [(B "class_declaration" 2 0 4875 0 124 [(A "class" 3 0 5 0 0 []); (B "identifier" 4 6 14 0 0 [] # "name"); (B "class_body" 5 15 4875 0 124 [(A "{" 6 15 16 0 0 []); (B "method_declaration" 7 19 494 1 16 [(B "void_type" 8 19 23 1 1 [] # "type"); (B "identifier" 9 24 34 1 1 [] # "name"); (B "formal_parameters" 10 34 36 1 1 [(A "(" 11 34 35 1 1 []); (A ")" 12 35 36 1 1 [])] # "parameters"); (B "block" 13 37 494 1 16 [(A "{" 14 37 38 1 1 []); (B "local_variable_declaration" 15 43 86 2 2 [(B "type_identifier" 16 43 50 2 2 [] # "type"); (B "variable_declarator" 17 51 85 2 2 [(B "identifier" 18 51 58 2 2 [] # "name"); (B "assignment_operator" 19 59 60 2 2 [(A "=" 20 59 60 2 2 [])]); (B "object_creation_expression" 21 61 85 2 2 [(A "new" 22 61 64 2 2 []); (B "type_identifier" 23 65 72 2 2 [] # "type"); (B "argument_list" 24 72 85 2 2 [(A "(" 25 72 73 2 2 []); (B "assignment_expression" 26 73 84 2 2 [(B "identifier" 27 73 77 2 2 [] # "left"); (B "assignment_operator" 28 77 78 2 2 [(A "=" 29 77 78 2 2 [])] # "operator"); (B "string_literal" 30 78 84 2 2 [] # "right")]); (A ")" 31 84 85 2 2 [])] # "arguments")] # "value")] # "declarator"); (A ";" 32 85 86 2 2 [])]); (B "local_variable_declaration" 33 91 223 3 6 [(B "array_type" 34 91 100 3 3 [(B "type_identifier" 35 91 98 3 3 [] # "element"); (B "dimensions" 36 98 100 3 3 [(A "[" 37 98 99 3 3 []); (A "]" 38 99 100 3 3 [])] # "dimensions")] # "type"); (B "variable_declarator" 39 101 222 3 6 [(B "identifier" 40 101 108 3 3 [] # "name"); (B "assignment_operator" 41 109 110 3 3 [(A "=" 42 109 110 3 3 [])]); (B "array_creation_expression" 43 111 222 3 6 [(A "new" 44 111 114 3 3 []); (B "generic_type" 45 115 128 3 3 [(B "type_identifier" 46 115 119 3 3 []); (B "type_arguments" 47 119 128 3 3 [(A "<" 48 119 120 3 3 []); (B "type_identifier" 49 120 127 3 3 []); (A ">" 50 127 128 3 3 [])])] # "type"); (B "array_initializer" 51 128 222 3 6 [(A "{" 52 128 129 3 3 []); (B "object_creation_expression" 53 136 172 4 4 [(A "new" 54 136 139 4 4 []); (B "type_identifier" 55 140 147 4 4 [] # "type"); (B "argument_list" 56 147 172 4 4 [(A "(" 57 147 148 4 4 []); (B "assignment_expression" 58 148 171 4 4 [(B "identifier" 59 148 152 4 4 [] # "left"); (B "assignment_operator" 60 153 154 4 4 [(A "=" 61 153 154 4 4 [])] # "operator"); (B "string_literal" 62 155 171 4 4 [] # "right")]); (A ")" 63 171 172 4 4 [])] # "arguments")]); (A "," 64 172 173 4 4 []); (B "object_creation_expression" 65 180 216 5 5 [(A "new" 66 180 183 5 5 []); (B "type_identifier" 67 184 191 5 5 [] # "type"); (B "argument_list" 68 191 216 5 5 [(A "(" 69 191 192 5 5 []); (B "assignment_expression" 70 192 215 5 5 [(B "identifier" 71 192 196 5 5 [] # "left"); (B "assignment_operator" 72 197 198 5 5 [(A "=" 73 197 198 5 5 [])] # "operator"); (B "string_literal" 74 199 215 5 5 [] # "right")]); (A ")" 75 215 216 5 5 [])] # "arguments")]); (A "}" 76 221 222 6 6 [])] # "value")] # "value")] # "declarator"); (A ";" 77 222 223 6 6 [])]); (B "expression_statement" 78 228 243 7 7 [(B "dml_expression" 79 228 242 7 7 [(B "dml_type" 80 228 234 7 7 [(B "insert" 81 228 234 7 7 [(A "insert" 82 228 234 7 7 [])])]); (B "identifier" 83 235 242 7 7 [] # "target")]); (A ";" 84 242 243 7 7 [])]); (B "expression_statement" 85 248 264 8 8 [(B "dml_expression" 86 248 263 8 8 [(B "dml_type" 87 248 254 8 8 [(B "insert" 88 248 254 8 8 [(A "insert" 89 248 254 8 8 [])])]); (B "identifier" 90 255 263 8 8 [] # "target")]); (A ";" 91 263 264 8 8 [])]); (B "expression_statement" 92 269 305 9 9 [(B "dml_expression" 93 269 304 9 9 [(B "dml_type" 94 269 275 9 9 [(B "insert" 95 269 275 9 9 [(A "insert" 96 269 275 9 9 [])])]); (B "object_creation_expression" 97 276 304 9 9 [(A "new" 98 276 279 9 9 []); (B "type_identifier" 99 280 287 9 9 [] # "type"); (B "argument_list" 100 287 304 9 9 [(A "(" 101 287 288 9 9 []); (B "assignment_expression" 102 288 303 9 9 [(B "identifier" 103 288 292 9 9 [] # "left"); (B "assignment_operator" 104 292 293 9 9 [(A "=" 105 292 293 9 9 [])] # "operator"); (B "string_literal" 106 293 303 9 9 [] # "right")]); (A ")" 107 303 304 9 9 [])] # "arguments")] # "target")]); (A ";" 108 304 305 9 9 [])]); (B "expression_statement" 109 310 432 10 13 [(B "dml_expression" 110 310 431 10 13 [(B "dml_type" 111 310 316 10 10 [(B "insert" 112 310 316 10 10 [(A "insert" 113 310 316 10 10 [])])]); (B "array_creation_expression" 114 317 431 10 13 [(A "new" 115 317 320 10 10 []); (B "generic_type" 116 321 334 10 10 [(B "type_identifier" 117 321 325 10 10 []); (B "type_arguments" 118 325 334 10 10 [(A "<" 119 325 326 10 10 []); (B "type_identifier" 120 326 333 10 10 []); (A ">" 121 333 334 10 10 [])])] # "type"); (B "array_initializer" 122 334 431 10 13 [(A "{" 123 334 335 10 10 []); (B "object_creation_expression" 124 342 380 11 11 [(A "new" 125 342 345 11 11 []); (B "type_identifier" 126 346 353 11 11 [] # "type"); (B "argument_list" 127 353 380 11 11 [(A "(" 128 353 354 11 11 []); (B "assignment_expression" 129 354 379 11 11 [(B "identifier" 130 354 358 11 11 [] # "left"); (B "assignment_operator" 131 359 360 11 11 [(A "=" 132 359 360 11 11 [])] # "operator"); (B "string_literal" 133 361 379 11 11 [] # "right")]); (A ")" 134 379 380 11 11 [])] # "arguments")]); (A "," 135 380 381 11 11 []); (B "object_creation_expression" 136 388 425 12 12 [(A "new" 137 388 391 12 12 []); (B "type_identifier" 138 392 399 12 12 [] # "type"); (B "argument_list" 139 399 425 12 12 [(A "(" 140 399 400 12 12 []); (B "assignment_expression" 141 400 424 12 12 [(B "identifier" 142 400 404 12 12 [] # "left"); (B "assignment_operator" 143 405 406 12 12 [(A "=" 144 405 406 12 12 [])] # "operator"); (B "string_literal" 145 407 424 12 12 [] # "right")]); (A ")" 146 424 425 12 12 [])] # "arguments")]); (A "}" 147 430 431 13 13 [])] # "value")] # "target")]); (A ";" 148 431 432 13 13 [])]); (B "expression_statement" 149 437 460 14 14 [(B "dml_expression" 150 437 459 14 14 [(B "dml_type" 151 437 443 14 14 [(B "insert" 152 437 443 14 14 [(A "insert" 153 437 443 14 14 [])])]); (B "dml_security_mode" 154 444 451 14 14 [(A "as" 155 444 446 14 14 []); (B "user" 156 447 451 14 14 [(A "user" 157 447 451 14 14 [])])]); (B "identifier" 158 452 459 14 14 [] # "target")]); (A ";" 159 459 460 14 14 [])]); (B "expression_statement" 160 465 490 15 15 [(B "dml_expression" 161 465 489 15 15 [(B "dml_type" 162 465 471 15 15 [(B "insert" 163 465 471 15 15 [(A "insert" 164 465 471 15 15 [])])]); (B "dml_security_mode" 165 472 481 15 15 [(A "as" 166 472 474 15 15 []); (B "system" 167 475 481 15 15 [(A "system" 168 475 481 15 15 [])])]); (B "identifier" 169 482 489 15 15 [] # "target")]); (A ";" 170 489 490 15 15 [])]); (A "}" 171 493 494 16 16 [])] # "body")]); (B "method_declaration" 172 497 1126 17 33 [(B "void_type" 173 497 501 17 17 [] # "type"); (B "identifier" 174 502 512 17 17 [] # "name"); (B "formal_parameters" 175 512 514 17 17 [(A "(" 176 512 513 17 17 []); (A ")" 177 513 514 17 17 [])] # "parameters"); (B "block" 178 515 1126 17 33 [(A "{" 179 515 516 17 17 []); (B "local_variable_declaration" 180 521 572 18 18 [(B "type_identifier" 181 521 523 18 18 [] # "type"); (B "variable_declarator" 182 524 571 18 18 [(B "identifier" 183 524 533 18 18 [] # "name"); (B "assignment_operator" 184 534 535 18 18 [(A "=" 185 534 535 18 18 [])]); (B "field_access" 186 536 571 18 18 [(B "query_expression" 187 536 568 18 18 [(A "[" 188 536 537 18 18 []); (B "soql_query_body" 189 537 567 18 18 [(B "select_clause" 190 537 546 18 18 [(A "SELECT" 191 537 543 18 18 []); (B "field_identifier" 192 544 546 18 18 [(B "identifier" 193 544 546 18 18 [])])] # "select_clause"); (B "from_clause" 194 547 559 18 18 [(A "FROM" 195 547 551 18 18 []); (B "storage_identifier" 196 552 559 18 18 [(B "identifier" 197 552 559 18 18 [])])] # "from_clause"); (B "limit_clause" 198 560 567 18 18 [(A "LIMIT" 199 560 565 18 18 []); (B "int" 200 566 567 18 18 [])] # "limit_clause")]); (A "]" 201 567 568 18 18 [])] # "object"); (A "." 202 568 569 18 18 []); (B "identifier" 203 569 571 18 18 [] # "field")] # "value")] # "declarator"); (A ";" 204 571 572 18 18 [])]); (B "local_variable_declaration" 205 577 638 19 19 [(B "type_identifier" 206 577 584 19 19 [] # "type"); (B "variable_declarator" 207 585 637 19 19 [(B "identifier" 208 585 592 19 19 [] # "name"); (B "assignment_operator" 209 593 594 19 19 [(A "=" 210 593 594 19 19 [])]); (B "object_creation_expression" 211 595 637 19 19 [(A "new" 212 595 598 19 19 []); (B "type_identifier" 213 599 606 19 19 [] # "type"); (B "argument_list" 214 606 637 19 19 [(A "(" 215 606 607 19 19 []); (B "assignment_expression" 216 607 621 19 19 [(B "identifier" 217 607 609 19 19 [] # "left"); (B "assignment_operator" 218 610 611 19 19 [(A "=" 219 610 611 19 19 [])] # "operator"); (B "identifier" 220 612 621 19 19 [] # "right")]); (A "," 221 621 622 19 19 []); (B "assignment_expression" 222 623 636 19 19 [(B "identifier" 223 623 627 19 19 [] # "left"); (B "assignment_operator" 224 628 629 19 19 [(A "=" 225 628 629 19 19 [])] # "operator"); (B "string_literal" 226 630 636 19 19 [] # "right")]); (A ")" 227 636 637 19 19 [])] # "arguments")] # "value")] # "declarator"); (A ";" 228 637 638 19 19 [])]); (B "local_variable_declaration" 229 643 807 20 23 [(B "array_type" 230 643 652 20 20 [(B "type_identifier" 231 643 650 20 20 [] # "element"); (B "dimensions" 232 650 652 20 20 [(A "[" 233 650 651 20 20 []); (A "]" 234 651 652 20 20 [])] # "dimensions")] # "type"); (B "variable_declarator" 235 653 806 20 23 [(B "identifier" 236 653 660 20 20 [] # "name"); (B "assignment_operator" 237 661 662 20 20 [(A "=" 238 661 662 20 20 [])]); (B "array_creation_expression" 239 663 806 20 23 [(A "new" 240 663 666 20 20 []); (B "generic_type" 241 667 680 20 20 [(B "type_identifier" 242 667 671 20 20 []); (B "type_arguments" 243 671 680 20 20 [(A "<" 244 671 672 20 20 []); (B "type_identifier" 245 672 679 20 20 []); (A ">" 246 679 680 20 20 [])])] # "type"); (B "array_initializer" 247 680 806 20 23 [(A "{" 248 680 681 20 20 []); (B "object_creation_expression" 249 688 740 21 21 [(A "new" 250 688 691 21 21 []); (B "type_identifier" 251 692 699 21 21 [] # "type"); (B "argument_list" 252 699 740 21 21 [(A "(" 253 699 700 21 21 []); (B "assignment_expression" 254 700 714 21 21 [(B "identifier" 255 700 702 21 21 [] # "left"); (B "assignment_operator" 256 703 704 21 21 [(A "=" 257 703 704 21 21 [])] # "operator"); (B "identifier" 258 705 714 21 21 [] # "right")]); (A "," 259 714 715 21 21 []); (B "assignment_expression" 260 716 739 21 21 [(B "identifier" 261 716 720 21 21 [] # "left"); (B "assignment_operator" 262 721 722 21 21 [(A "=" 263 721 722 21 21 [])] # "operator"); (B "string_literal" 264 723 739 21 21 [] # "right")]); (A ")" 265 739 740 21 21 [])] # "arguments")]); (A "," 266 740 741 21 21 []); (B "object_creation_expression" 267 748 800 22 22 [(A "new" 268 748 751 22 22 []); (B "type_identifier" 269 752 759 22 22 [] # "type"); (B "argument_list" 270 759 800 22 22 [(A "(" 271 759 760 22 22 []); (B "assignment_expression" 272 760 774 22 22 [(B "identifier" 273 760 762 22 22 [] # "left"); (B "assignment_operator" 274 763 764 22 22 [(A "=" 275 763 764 22 22 [])] # "operator"); (B "identifier" 276 765 774 22 22 [] # "right")]); (A "," 277 774 775 22 22 []); (B "assignment_expression" 278 776 799 22 22 [(B "identifier" 279 776 780 22 22 [] # "left"); (B "assignment_operator" 280 781 782 22 22 [(A "=" 281 781 782 22 22 [])] # "operator"); (B "string_literal" 282 783 799 22 22 [] # "right")]); (A ")" 283 799 800 22 22 [])] # "arguments")]); (A "}" 284 805 806 23 23 [])] # "value")] # "value")] # "declarator"); (A ";" 285 806 807 23 23 [])]); (B "expression_statement" 286 812 827 24 24 [(B "dml_expression" 287 812 826 24 24 [(B "dml_type" 288 812 818 24 24 [(B "update" 289 812 818 24 24 [(A "update" 290 812 818 24 24 [])])]); (B "identifier" 291 819 826 24 24 [] # "target")]); (A ";" 292 826 827 24 24 [])]); (B "expression_statement" 293 832 848 25 25 [(B "dml_expression" 294 832 847 25 25 [(B "dml_type" 295 832 838 25 25 [(B "update" 296 832 838 25 25 [(A "update" 297 832 838 25 25 [])])]); (B "identifier" 298 839 847 25 25 [] # "target")]); (A ";" 299 847 848 25 25 [])]); (B "expression_statement" 300 853 905 26 26 [(B "dml_expression" 301 853 904 26 26 [(B "dml_type" 302 853 859 26 26 [(B "update" 303 853 859 26 26 [(A "update" 304 853 859 26 26 [])])]); (B "object_creation_expression" 305 860 904 26 26 [(A "new" 306 860 863 26 26 []); (B "type_identifier" 307 864 871 26 26 [] # "type"); (B "argument_list" 308 871 904 26 26 [(A "(" 309 871 872 26 26 []); (B "assignment_expression" 310 872 886 26 26 [(B "identifier" 311 872 874 26 26 [] # "left"); (B "assignment_operator" 312 875 876 26 26 [(A "=" 313 875 876 26 26 [])] # "operator"); (B "identifier" 314 877 886 26 26 [] # "right")]); (A "," 315 886 887 26 26 []); (B "assignment_expression" 316 888 903 26 26 [(B "identifier" 317 888 892 26 26 [] # "left"); (B "assignment_operator" 318 892 893 26 26 [(A "=" 319 892 893 26 26 [])] # "operator"); (B "string_literal" 320 893 903 26 26 [] # "right")]); (A ")" 321 903 904 26 26 [])] # "arguments")] # "target")]); (A ";" 322 904 905 26 26 [])]); (B "expression_statement" 323 910 1064 27 30 [(B "dml_expression" 324 910 1063 27 30 [(B "dml_type" 325 910 916 27 27 [(B "update" 326 910 916 27 27 [(A "update" 327 910 916 27 27 [])])]); (B "array_creation_expression" 328 917 1063 27 30 [(A "new" 329 917 920 27 27 []); (B "generic_type" 330 921 934 27 27 [(B "type_identifier" 331 921 925 27 27 []); (B "type_arguments" 332 925 934 27 27 [(A "<" 333 925 926 27 27 []); (B "type_identifier" 334 926 933 27 27 []); (A ">" 335 933 934 27 27 [])])] # "type"); (B "array_initializer" 336 934 1063 27 30 [(A "{" 337 934 935 27 27 []); (B "object_creation_expression" 338 942 996 28 28 [(A "new" 339 942 945 28 28 []); (B "type_identifier" 340 946 953 28 28 [] # "type"); (B "argument_list" 341 953 996 28 28 [(A "(" 342 953 954 28 28 []); (B "assignment_expression" 343 954 968 28 28 [(B "identifier" 344 954 956 28 28 [] # "left"); (B "assignment_operator" 345 957 958 28 28 [(A "=" 346 957 958 28 28 [])] # "operator"); (B "identifier" 347 959 968 28 28 [] # "right")]); (A "," 348 968 969 28 28 []); (B "assignment_expression" 349 970 995 28 28 [(B "identifier" 350 970 974 28 28 [] # "left"); (B "assignment_operator" 351 975 976 28 28 [(A "=" 352 975 976 28 28 [])] # "operator"); (B "string_literal" 353 977 995 28 28 [] # "right")]); (A ")" 354 995 996 28 28 [])] # "arguments")]); (A "," 355 996 997 28 28 []); (B "object_creation_expression" 356 1004 1057 29 29 [(A "new" 357 1004 1007 29 29 []); (B "type_identifier" 358 1008 1015 29 29 [] # "type"); (B "argument_list" 359 1015 1057 29 29 [(A "(" 360 1015 1016 29 29 []); (B "assignment_expression" 361 1016 1030 29 29 [(B "identifier" 362 1016 1018 29 29 [] # "left"); (B "assignment_operator" 363 1019 1020 29 29 [(A "=" 364 1019 1020 29 29 [])] # "operator"); (B "identifier" 365 1021 1030 29 29 [] # "right")]); (A "," 366 1030 1031 29 29 []); (B "assignment_expression" 367 1032 1056 29 29 [(B "identifier" 368 1032 1036 29 29 [] # "left"); (B "assignment_operator" 369 1037 1038 29 29 [(A "=" 370 1037 1038 29 29 [])] # "operator"); (B "string_literal" 371 1039 1056 29 29 [] # "right")]); (A ")" 372 1056 1057 29 29 [])] # "arguments")]); (A "}" 373 1062 1063 30 30 [])] # "value")] # "target")]); (A ";" 374 1063 1064 30 30 [])]); (B "expression_statement" 375 1069 1092 31 31 [(B "dml_expression" 376 1069 1091 31 31 [(B "dml_type" 377 1069 1075 31 31 [(B "update" 378 1069 1075 31 31 [(A "update" 379 1069 1075 31 31 [])])]); (B "dml_security_mode" 380 1076 1083 31 31 [(A "as" 381 1076 1078 31 31 []); (B "user" 382 1079 1083 31 31 [(A "user" 383 1079 1083 31 31 [])])]); (B "identifier" 384 1084 1091 31 31 [] # "target")]); (A ";" 385 1091 1092 31 31 [])]); (B "expression_statement" 386 1097 1122 32 32 [(B "dml_expression" 387 1097 1121 32 32 [(B "dml_type" 388 1097 1103 32 32 [(B "update" 389 1097 1103 32 32 [(A "update" 390 1097 1103 32 32 [])])]); (B "dml_security_mode" 391 1104 1113 32 32 [(A "as" 392 1104 1106 32 32 []); (B "system" 393 1107 1113 32 32 [(A "system" 394 1107 1113 32 32 [])])]); (B "identifier" 395 1114 1121 32 32 [] # "target")]); (A ";" 396 1121 1122 32 32 [])]); (A "}" 397 1125 1126 33 33 [])] # "body")]); (B "method_declaration" 398 1129 1741 34 50 [(B "void_type" 399 1129 1133 34 34 [] # "type"); (B "identifier" 400 1134 1159 34 34 [] # "name"); (B "formal_parameters" 401 1159 1161 34 34 [(A "(" 402 1159 1160 34 34 []); (A ")" 403 1160 1161 34 34 [])] # "parameters"); (B "block" 404 1162 1741 34 50 [(A "{" 405 1162 1163 34 34 []); (B "local_variable_declaration" 406 1168 1219 35 35 [(B "type_identifier" 407 1168 1170 35 35 [] # "type"); (B "variable_declarator" 408 1171 1218 35 35 [(B "identifier" 409 1171 1180 35 35 [] # "name"); (B "assignment_operator" 410 1181 1182 35 35 [(A "=" 411 1181 1182 35 35 [])]); (B "field_access" 412 1183 1218 35 35 [(B "query_expression" 413 1183 1215 35 35 [(A "[" 414 1183 1184 35 35 []); (B "soql_query_body" 415 1184 1214 35 35 [(B "select_clause" 416 1184 1193 35 35 [(A "SELECT" 417 1184 1190 35 35 []); (B "field_identifier" 418 1191 1193 35 35 [(B "identifier" 419 1191 1193 35 35 [])])] # "select_clause"); (B "from_clause" 420 1194 1206 35 35 [(A "FROM" 421 1194 1198 35 35 []); (B "storage_identifier" 422 1199 1206 35 35 [(B "identifier" 423 1199 1206 35 35 [])])] # "from_clause"); (B "limit_clause" 424 1207 1214 35 35 [(A "LIMIT" 425 1207 1212 35 35 []); (B "int" 426 1213 1214 35 35 [])] # "limit_clause")]); (A "]" 427 1214 1215 35 35 [])] # "object"); (A "." 428 1215 1216 35 35 []); (B "identifier" 429 1216 1218 35 35 [] # "field")] # "value")] # "declarator"); (A ";" 430 1218 1219 35 35 [])]); (B "local_variable_declaration" 431 1224 1285 36 36 [(B "type_identifier" 432 1224 1231 36 36 [] # "type"); (B "variable_declarator" 433 1232 1284 36 36 [(B "identifier" 434 1232 1239 36 36 [] # "name"); (B "assignment_operator" 435 1240 1241 36 36 [(A "=" 436 1240 1241 36 36 [])]); (B "object_creation_expression" 437 1242 1284 36 36 [(A "new" 438 1242 1245 36 36 []); (B "type_identifier" 439 1246 1253 36 36 [] # "type"); (B "argument_list" 440 1253 1284 36 36 [(A "(" 441 1253 1254 36 36 []); (B "assignment_expression" 442 1254 1268 36 36 [(B "identifier" 443 1254 1256 36 36 [] # "left"); (B "assignment_operator" 444 1257 1258 36 36 [(A "=" 445 1257 1258 36 36 [])] # "operator"); (B "identifier" 446 1259 1268 36 36 [] # "right")]); (A "," 447 1268 1269 36 36 []); (B "assignment_expression" 448 1270 1283 36 36 [(B "identifier" 449 1270 1274 36 36 [] # "left"); (B "assignment_operator" 450 1275 1276 36 36 [(A "=" 451 1275 1276 36 36 [])] # "operator"); (B "string_literal" 452 1277 1283 36 36 [] # "right")]); (A ")" 453 1283 1284 36 36 [])] # "arguments")] # "value")] # "declarator"); (A ";" 454 1284 1285 36 36 [])]); (B "local_variable_declaration" 455 1290 1438 37 40 [(B "array_type" 456 1290 1299 37 37 [(B "type_identifier" 457 1290 1297 37 37 [] # "element"); (B "dimensions" 458 1297 1299 37 37 [(A "[" 459 1297 1298 37 37 []); (A "]" 460 1298 1299 37 37 [])] # "dimensions")] # "type"); (B "variable_declarator" 461 1300 1437 37 40 [(B "identifier" 462 1300 1307 37 37 [] # "name"); (B "assignment_operator" 463 1308 1309 37 37 [(A "=" 464 1308 1309 37 37 [])]); (B "array_creation_expression" 465 1310 1437 37 40 [(A "new" 466 1310 1313 37 37 []); (B "generic_type" 467 1314 1327 37 37 [(B "type_identifier" 468 1314 1318 37 37 []); (B "type_arguments" 469 1318 1327 37 37 [(A "<" 470 1318 1319 37 37 []); (B "type_identifier" 471 1319 1326 37 37 []); (A ">" 472 1326 1327 37 37 [])])] # "type"); (B "array_initializer" 473 1327 1437 37 40 [(A "{" 474 1327 1328 37 37 []); (B "object_creation_expression" 475 1335 1371 38 38 [(A "new" 476 1335 1338 38 38 []); (B "type_identifier" 477 1339 1346 38 38 [] # "type"); (B "argument_list" 478 1346 1371 38 38 [(A "(" 479 1346 1347 38 38 []); (B "assignment_expression" 480 1347 1370 38 38 [(B "identifier" 481 1347 1351 38 38 [] # "left"); (B "assignment_operator" 482 1352 1353 38 38 [(A "=" 483 1352 1353 38 38 [])] # "operator"); (B "string_literal" 484 1354 1370 38 38 [] # "right")]); (A ")" 485 1370 1371 38 38 [])] # "arguments")]); (A "," 486 1371 1372 38 38 []); (B "object_creation_expression" 487 1379 1431 39 39 [(A "new" 488 1379 1382 39 39 []); (B "type_identifier" 489 1383 1390 39 39 [] # "type"); (B "argument_list" 490 1390 1431 39 39 [(A "(" 491 1390 1391 39 39 []); (B "assignment_expression" 492 1391 1405 39 39 [(B "identifier" 493 1391 1393 39 39 [] # "left"); (B "assignment_operator" 494 1394 1395 39 39 [(A "=" 495 1394 1395 39 39 [])] # "operator"); (B "identifier" 496 1396 1405 39 39 [] # "right")]); (A "," 497 1405 1406 39 39 []); (B "assignment_expression" 498 1407 1430 39 39 [(B "identifier" 499 1407 1411 39 39 [] # "left"); (B "assignment_operator" 500 1412 1413 39 39 [(A "=" 501 1412 1413 39 39 [])] # "operator"); (B "string_literal" 502 1414 1430 39 39 [] # "right")]); (A ")" 503 1430 1431 39 39 [])] # "arguments")]); (A "}" 504 1436 1437 40 40 [])] # "value")] # "value")] # "declarator"); (A ";" 505 1437 1438 40 40 [])]); (B "expression_statement" 506 1443 1458 41 41 [(B "dml_expression" 507 1443 1457 41 41 [(B "dml_type" 508 1443 1449 41 41 [(B "upsert" 509 1443 1449 41 41 [(A "upsert" 510 1443 1449 41 41 [])])]); (B "identifier" 511 1450 1457 41 41 [] # "target")]); (A ";" 512 1457 1458 41 41 [])]); (B "expression_statement" 513 1463 1479 42 42 [(B "dml_expression" 514 1463 1478 42 42 [(B "dml_type" 515 1463 1469 42 42 [(B "upsert" 516 1463 1469 42 42 [(A "upsert" 517 1463 1469 42 42 [])])]); (B "identifier" 518 1470 1478 42 42 [] # "target")]); (A ";" 519 1478 1479 42 42 [])]); (B "expression_statement" 520 1484 1536 43 43 [(B "dml_expression" 521 1484 1535 43 43 [(B "dml_type" 522 1484 1490 43 43 [(B "upsert" 523 1484 1490 43 43 [(A "upsert" 524 1484 1490 43 43 [])])]); (B "object_creation_expression" 525 1491 1535 43 43 [(A "new" 526 1491 1494 43 43 []); (B "type_identifier" 527 1495 1502 43 43 [] # "type"); (B "argument_list" 528 1502 1535 43 43 [(A "(" 529 1502 1503 43 43 []); (B "assignment_expression" 530 1503 1517 43 43 [(B "identifier" 531 1503 1505 43 43 [] # "left"); (B "assignment_operator" 532 1506 1507 43 43 [(A "=" 533 1506 1507 43 43 [])] # "operator"); (B "identifier" 534 1508 1517 43 43 [] # "right")]); (A "," 535 1517 1518 43 43 []); (B "assignment_expression" 536 1519 1534 43 43 [(B "identifier" 537 1519 1523 43 43 [] # "left"); (B "assignment_operator" 538 1523 1524 43 43 [(A "=" 539 1523 1524 43 43 [])] # "operator"); (B "string_literal" 540 1524 1534 43 43 [] # "right")]); (A ")" 541 1534 1535 43 43 [])] # "arguments")] # "target")]); (A ";" 542 1535 1536 43 43 [])]); (B "expression_statement" 543 1541 1679 44 47 [(B "dml_expression" 544 1541 1678 44 47 [(B "dml_type" 545 1541 1547 44 44 [(B "upsert" 546 1541 1547 44 44 [(A "upsert" 547 1541 1547 44 44 [])])]); (B "array_creation_expression" 548 1548 1678 44 47 [(A "new" 549 1548 1551 44 44 []); (B "generic_type" 550 1552 1565 44 44 [(B "type_identifier" 551 1552 1556 44 44 []); (B "type_arguments" 552 1556 1565 44 44 [(A "<" 553 1556 1557 44 44 []); (B "type_identifier" 554 1557 1564 44 44 []); (A ">" 555 1564 1565 44 44 [])])] # "type"); (B "array_initializer" 556 1565 1678 44 47 [(A "{" 557 1565 1566 44 44 []); (B "object_creation_expression" 558 1573 1611 45 45 [(A "new" 559 1573 1576 45 45 []); (B "type_identifier" 560 1577 1584 45 45 [] # "type"); (B "argument_list" 561 1584 1611 45 45 [(A "(" 562 1584 1585 45 45 []); (B "assignment_expression" 563 1585 1610 45 45 [(B "identifier" 564 1585 1589 45 45 [] # "left"); (B "assignment_operator" 565 1590 1591 45 45 [(A "=" 566 1590 1591 45 45 [])] # "operator"); (B "string_literal" 567 1592 1610 45 45 [] # "right")]); (A ")" 568 1610 1611 45 45 [])] # "arguments")]); (A "," 569 1611 1612 45 45 []); (B "object_creation_expression" 570 1619 1672 46 46 [(A "new" 571 1619 1622 46 46 []); (B "type_identifier" 572 1623 1630 46 46 [] # "type"); (B "argument_list" 573 1630 1672 46 46 [(A "(" 574 1630 1631 46 46 []); (B "assignment_expression" 575 1631 1645 46 46 [(B "identifier" 576 1631 1633 46 46 [] # "left"); (B "assignment_operator" 577 1634 1635 46 46 [(A "=" 578 1634 1635 46 46 [])] # "operator"); (B "identifier" 579 1636 1645 46 46 [] # "right")]); (A "," 580 1645 1646 46 46 []); (B "assignment_expression" 581 1647 1671 46 46 [(B "identifier" 582 1647 1651 46 46 [] # "left"); (B "assignment_operator" 583 1652 1653 46 46 [(A "=" 584 1652 1653 46 46 [])] # "operator"); (B "string_literal" 585 1654 1671 46 46 [] # "right")]); (A ")" 586 1671 1672 46 46 [])] # "arguments")]); (A "}" 587 1677 1678 47 47 [])] # "value")] # "target")]); (A ";" 588 1678 1679 47 47 [])]); (B "expression_statement" 589 1684 1707 48 48 [(B "dml_expression" 590 1684 1706 48 48 [(B "dml_type" 591 1684 1690 48 48 [(B "upsert" 592 1684 1690 48 48 [(A "upsert" 593 1684 1690 48 48 [])])]); (B "dml_security_mode" 594 1691 1698 48 48 [(A "as" 595 1691 1693 48 48 []); (B "user" 596 1694 1698 48 48 [(A "user" 597 1694 1698 48 48 [])])]); (B "identifier" 598 1699 1706 48 48 [] # "target")]); (A ";" 599 1706 1707 48 48 [])]); (B "expression_statement" 600 1712 1737 49 49 [(B "dml_expression" 601 1712 1736 49 49 [(B "dml_type" 602 1712 1718 49 49 [(B "upsert" 603 1712 1718 49 49 [(A "upsert" 604 1712 1718 49 49 [])])]); (B "dml_security_mode" 605 1719 1728 49 49 [(A "as" 606 1719 1721 49 49 []); (B "system" 607 1722 1728 49 49 [(A "system" 608 1722 1728 49 49 [])])]); (B "identifier" 609 1729 1736 49 49 [] # "target")]); (A ";" 610 1736 1737 49 49 [])]); (A "}" 611 1740 1741 50 50 [])] # "body")]); (B "method_declaration" 612 1744 2446 51 65 [(B "void_type" 613 1744 1748 51 51 [] # "type"); (B "identifier" 614 1749 1771 51 51 [] # "name"); (B "formal_parameters" 615 1771 1773 51 51 [(A "(" 616 1771 1772 51 51 []); (A ")" 617 1772 1773 51 51 [])] # "parameters"); (B "block" 618 1774 2446 51 65 [(A "{" 619 1774 1775 51 51 []); (B "local_variable_declaration" 620 1780 1831 52 52 [(B "type_identifier" 621 1780 1782 52 52 [] # "type"); (B "variable_declarator" 622 1783 1830 52 52 [(B "identifier" 623 1783 1792 52 52 [] # "name"); (B "assignment_operator" 624 1793 1794 52 52 [(A "=" 625 1793 1794 52 52 [])]); (B "field_access" 626 1795 1830 52 52 [(B "query_expression" 627 1795 1827 52 52 [(A "[" 628 1795 1796 52 52 []); (B "soql_query_body" 629 1796 1826 52 52 [(B "select_clause" 630 1796 1805 52 52 [(A "SELECT" 631 1796 1802 52 52 []); (B "field_identifier" 632 1803 1805 52 52 [(B "identifier" 633 1803 1805 52 52 [])])] # "select_clause"); (B "from_clause" 634 1806 1818 52 52 [(A "FROM" 635 1806 1810 52 52 []); (B "storage_identifier" 636 1811 1818 52 52 [(B "identifier" 637 1811 1818 52 52 [])])] # "from_clause"); (B "limit_clause" 638 1819 1826 52 52 [(A "LIMIT" 639 1819 1824 52 52 []); (B "int" 640 1825 1826 52 52 [])] # "limit_clause")]); (A "]" 641 1826 1827 52 52 [])] # "object"); (A "." 642 1827 1828 52 52 []); (B "identifier" 643 1828 1830 52 52 [] # "field")] # "value")] # "declarator"); (A ";" 644 1830 1831 52 52 [])]); (B "local_variable_declaration" 645 1836 1929 53 53 [(B "type_identifier" 646 1836 1843 53 53 [] # "type"); (B "variable_declarator" 647 1844 1928 53 53 [(B "identifier" 648 1844 1851 53 53 [] # "name"); (B "assignment_operator" 649 1852 1853 53 53 [(A "=" 650 1852 1853 53 53 [])]); (B "object_creation_expression" 651 1854 1928 53 53 [(A "new" 652 1854 1857 53 53 []); (B "type_identifier" 653 1858 1865 53 53 [] # "type"); (B "argument_list" 654 1865 1928 53 53 [(A "(" 655 1865 1866 53 53 []); (B "assignment_expression" 656 1866 1880 53 53 [(B "identifier" 657 1866 1868 53 53 [] # "left"); (B "assignment_operator" 658 1869 1870 53 53 [(A "=" 659 1869 1870 53 53 [])] # "operator"); (B "identifier" 660 1871 1880 53 53 [] # "right")]); (A "," 661 1880 1881 53 53 []); (B "assignment_expression" 662 1882 1895 53 53 [(B "identifier" 663 1882 1886 53 53 [] # "left"); (B "assignment_operator" 664 1887 1888 53 53 [(A "=" 665 1887 1888 53 53 [])] # "operator"); (B "string_literal" 666 1889 1895 53 53 [] # "right")]); (A "," 667 1895 1896 53 53 []); (B "assignment_expression" 668 1897 1927 53 53 [(B "identifier" 669 1897 1908 53 53 [] # "left"); (B "assignment_operator" 670 1908 1909 53 53 [(A "=" 671 1908 1909 53 53 [])] # "operator"); (B "string_literal" 672 1909 1927 53 53 [] # "right")]); (A ")" 673 1927 1928 53 53 [])] # "arguments")] # "value")] # "declarator"); (A ";" 674 1928 1929 53 53 [])]); (B "local_variable_declaration" 675 1934 2082 54 57 [(B "array_type" 676 1934 1943 54 54 [(B "type_identifier" 677 1934 1941 54 54 [] # "element"); (B "dimensions" 678 1941 1943 54 54 [(A "[" 679 1941 1942 54 54 []); (A "]" 680 1942 1943 54 54 [])] # "dimensions")] # "type"); (B "variable_declarator" 681 1944 2081 54 57 [(B "identifier" 682 1944 1951 54 54 [] # "name"); (B "assignment_operator" 683 1952 1953 54 54 [(A "=" 684 1952 1953 54 54 [])]); (B "array_creation_expression" 685 1954 2081 54 57 [(A "new" 686 1954 1957 54 54 []); (B "generic_type" 687 1958 1971 54 54 [(B "type_identifier" 688 1958 1962 54 54 []); (B "type_arguments" 689 1962 1971 54 54 [(A "<" 690 1962 1963 54 54 []); (B "type_identifier" 691 1963 1970 54 54 []); (A ">" 692 1970 1971 54 54 [])])] # "type"); (B "array_initializer" 693 1971 2081 54 57 [(A "{" 694 1971 1972 54 54 []); (B "object_creation_expression" 695 1979 2015 55 55 [(A "new" 696 1979 1982 55 55 []); (B "type_identifier" 697 1983 1990 55 55 [] # "type"); (B "argument_list" 698 1990 2015 55 55 [(A "(" 699 1990 1991 55 55 []); (B "assignment_expression" 700 1991 2014 55 55 [(B "identifier" 701 1991 1995 55 55 [] # "left"); (B "assignment_operator" 702 1996 1997 55 55 [(A "=" 703 1996 1997 55 55 [])] # "operator"); (B "string_literal" 704 1998 2014 55 55 [] # "right")]); (A ")" 705 2014 2015 55 55 [])] # "arguments")]); (A "," 706 2015 2016 55 55 []); (B "object_creation_expression" 707 2023 2075 56 56 [(A "new" 708 2023 2026 56 56 []); (B "type_identifier" 709 2027 2034 56 56 [] # "type"); (B "argument_list" 710 2034 2075 56 56 [(A "(" 711 2034 2035 56 56 []); (B "assignment_expression" 712 2035 2049 56 56 [(B "identifier" 713 2035 2037 56 56 [] # "left"); (B "assignment_operator" 714 2038 2039 56 56 [(A "=" 715 2038 2039 56 56 [])] # "operator"); (B "identifier" 716 2040 2049 56 56 [] # "right")]); (A "," 717 2049 2050 56 56 []); (B "assignment_expression" 718 2051 2074 56 56 [(B "identifier" 719 2051 2055 56 56 [] # "left"); (B "assignment_operator" 720 2056 2057 56 56 [(A "=" 721 2056 2057 56 56 [])] # "operator"); (B "string_literal" 722 2058 2074 56 56 [] # "right")]); (A ")" 723 2074 2075 56 56 [])] # "arguments")]); (A "}" 724 2080 2081 57 57 [])] # "value")] # "value")] # "declarator"); (A ";" 725 2081 2082 57 57 [])]); (B "expression_statement" 726 2087 2132 58 58 [(B "dml_expression" 727 2087 2131 58 58 [(B "dml_type" 728 2087 2093 58 58 [(B "upsert" 729 2087 2093 58 58 [(A "upsert" 730 2087 2093 58 58 [])])]); (B "identifier" 731 2094 2101 58 58 [] # "target"); (B "scoped_type_identifier" 732 2102 2131 58 58 [(B "scoped_type_identifier" 733 2102 2116 58 58 [(B "type_identifier" 734 2102 2109 58 58 []); (A "." 735 2109 2110 58 58 []); (B "type_identifier" 736 2110 2116 58 58 [])]); (A "." 737 2116 2117 58 58 []); (B "type_identifier" 738 2117 2131 58 58 [])] # "upsert_key")]); (A ";" 739 2131 2132 58 58 [])]); (B "expression_statement" 740 2137 2182 59 59 [(B "dml_expression" 741 2137 2181 59 59 [(B "dml_type" 742 2137 2143 59 59 [(B "upsert" 743 2137 2143 59 59 [(A "upsert" 744 2137 2143 59 59 [])])]); (B "identifier" 745 2144 2152 59 59 [] # "target"); (B "scoped_type_identifier" 746 2153 2181 59 59 [(B "scoped_type_identifier" 747 2153 2166 59 59 [(B "type_identifier" 748 2153 2160 59 59 []); (A "." 749 2160 2161 59 59 []); (B "type_identifier" 750 2161 2166 59 59 [])]); (A "." 751 2166 2167 59 59 []); (B "type_identifier" 752 2167 2181 59 59 [])] # "upsert_key")]); (A ";" 753 2181 2182 59 59 [])]); (B "expression_statement" 754 2187 2269 60 60 [(B "dml_expression" 755 2187 2268 60 60 [(B "dml_type" 756 2187 2193 60 60 [(B "upsert" 757 2187 2193 60 60 [(A "upsert" 758 2187 2193 60 60 [])])]); (B "object_creation_expression" 759 2194 2238 60 60 [(A "new" 760 2194 2197 60 60 []); (B "type_identifier" 761 2198 2205 60 60 [] # "type"); (B "argument_list" 762 2205 2238 60 60 [(A "(" 763 2205 2206 60 60 []); (B "assignment_expression" 764 2206 2220 60 60 [(B "identifier" 765 2206 2208 60 60 [] # "left"); (B "assignment_operator" 766 2209 2210 60 60 [(A "=" 767 2209 2210 60 60 [])] # "operator"); (B "identifier" 768 2211 2220 60 60 [] # "right")]); (A "," 769 2220 2221 60 60 []); (B "assignment_expression" 770 2222 2237 60 60 [(B "identifier" 771 2222 2226 60 60 [] # "left"); (B "assignment_operator" 772 2226 2227 60 60 [(A "=" 773 2226 2227 60 60 [])] # "operator"); (B "string_literal" 774 2227 2237 60 60 [] # "right")]); (A ")" 775 2237 2238 60 60 [])] # "arguments")] # "target"); (B "scoped_type_identifier" 776 2239 2268 60 60 [(B "scoped_type_identifier" 777 2239 2253 60 60 [(B "type_identifier" 778 2239 2246 60 60 []); (A "." 779 2246 2247 60 60 []); (B "type_identifier" 780 2247 2253 60 60 [])]); (A "." 781 2253 2254 60 60 []); (B "type_identifier" 782 2254 2268 60 60 [])] # "upsert_key")]); (A ";" 783 2268 2269 60 60 [])]); (B "expression_statement" 784 2274 2442 61 64 [(B "dml_expression" 785 2274 2441 61 64 [(B "dml_type" 786 2274 2280 61 61 [(B "upsert" 787 2274 2280 61 61 [(A "upsert" 788 2274 2280 61 61 [])])]); (B "array_creation_expression" 789 2281 2411 61 64 [(A "new" 790 2281 2284 61 61 []); (B "generic_type" 791 2285 2298 61 61 [(B "type_identifier" 792 2285 2289 61 61 []); (B "type_arguments" 793 2289 2298 61 61 [(A "<" 794 2289 2290 61 61 []); (B "type_identifier" 795 2290 2297 61 61 []); (A ">" 796 2297 2298 61 61 [])])] # "type"); (B "array_initializer" 797 2298 2411 61 64 [(A "{" 798 2298 2299 61 61 []); (B "object_creation_expression" 799 2306 2344 62 62 [(A "new" 800 2306 2309 62 62 []); (B "type_identifier" 801 2310 2317 62 62 [] # "type"); (B "argument_list" 802 2317 2344 62 62 [(A "(" 803 2317 2318 62 62 []); (B "assignment_expression" 804 2318 2343 62 62 [(B "identifier" 805 2318 2322 62 62 [] # "left"); (B "assignment_operator" 806 2323 2324 62 62 [(A "=" 807 2323 2324 62 62 [])] # "operator"); (B "string_literal" 808 2325 2343 62 62 [] # "right")]); (A ")" 809 2343 2344 62 62 [])] # "arguments")]); (A "," 810 2344 2345 62 62 []); (B "object_creation_expression" 811 2352 2405 63 63 [(A "new" 812 2352 2355 63 63 []); (B "type_identifier" 813 2356 2363 63 63 [] # "type"); (B "argument_list" 814 2363 2405 63 63 [(A "(" 815 2363 2364 63 63 []); (B "assignment_expression" 816 2364 2378 63 63 [(B "identifier" 817 2364 2366 63 63 [] # "left"); (B "assignment_operator" 818 2367 2368 63 63 [(A "=" 819 2367 2368 63 63 [])] # "operator"); (B "identifier" 820 2369 2378 63 63 [] # "right")]); (A "," 821 2378 2379 63 63 []); (B "assignment_expression" 822 2380 2404 63 63 [(B "identifier" 823 2380 2384 63 63 [] # "left"); (B "assignment_operator" 824 2385 2386 63 63 [(A "=" 825 2385 2386 63 63 [])] # "operator"); (B "string_literal" 826 2387 2404 63 63 [] # "right")]); (A ")" 827 2404 2405 63 63 [])] # "arguments")]); (A "}" 828 2410 2411 64 64 [])] # "value")] # "target"); (B "scoped_type_identifier" 829 2412 2441 64 64 [(B "scoped_type_identifier" 830 2412 2426 64 64 [(B "type_identifier" 831 2412 2419 64 64 []); (A "." 832 2419 2420 64 64 []); (B "type_identifier" 833 2420 2426 64 64 [])]); (A "." 834 2426 2427 64 64 []); (B "type_identifier" 835 2427 2441 64 64 [])] # "upsert_key")]); (A ";" 836 2441 2442 64 64 [])]); (A "}" 837 2445 2446 65 65 [])] # "body")]); (B "method_declaration" 838 2449 3078 66 82 [(B "void_type" 839 2449 2453 66 66 [] # "type"); (B "identifier" 840 2454 2464 66 66 [] # "name"); (B "formal_parameters" 841 2464 2466 66 66 [(A "(" 842 2464 2465 66 66 []); (A ")" 843 2465 2466 66 66 [])] # "parameters"); (B "block" 844 2467 3078 66 82 [(A "{" 845 2467 2468 66 66 []); (B "local_variable_declaration" 846 2473 2524 67 67 [(B "type_identifier" 847 2473 2475 67 67 [] # "type"); (B "variable_declarator" 848 2476 2523 67 67 [(B "identifier" 849 2476 2485 67 67 [] # "name"); (B "assignment_operator" 850 2486 2487 67 67 [(A "=" 851 2486 2487 67 67 [])]); (B "field_access" 852 2488 2523 67 67 [(B "query_expression" 853 2488 2520 67 67 [(A "[" 854 2488 2489 67 67 []); (B "soql_query_body" 855 2489 2519 67 67 [(B "select_clause" 856 2489 2498 67 67 [(A "SELECT" 857 2489 2495 67 67 []); (B "field_identifier" 858 2496 2498 67 67 [(B "identifier" 859 2496 2498 67 67 [])])] # "select_clause"); (B "from_clause" 860 2499 2511 67 67 [(A "FROM" 861 2499 2503 67 67 []); (B "storage_identifier" 862 2504 2511 67 67 [(B "identifier" 863 2504 2511 67 67 [])])] # "from_clause"); (B "limit_clause" 864 2512 2519 67 67 [(A "LIMIT" 865 2512 2517 67 67 []); (B "int" 866 2518 2519 67 67 [])] # "limit_clause")]); (A "]" 867 2519 2520 67 67 [])] # "object"); (A "." 868 2520 2521 67 67 []); (B "identifier" 869 2521 2523 67 67 [] # "field")] # "value")] # "declarator"); (A ";" 870 2523 2524 67 67 [])]); (B "local_variable_declaration" 871 2529 2590 68 68 [(B "type_identifier" 872 2529 2536 68 68 [] # "type"); (B "variable_declarator" 873 2537 2589 68 68 [(B "identifier" 874 2537 2544 68 68 [] # "name"); (B "assignment_operator" 875 2545 2546 68 68 [(A "=" 876 2545 2546 68 68 [])]); (B "object_creation_expression" 877 2547 2589 68 68 [(A "new" 878 2547 2550 68 68 []); (B "type_identifier" 879 2551 2558 68 68 [] # "type"); (B "argument_list" 880 2558 2589 68 68 [(A "(" 881 2558 2559 68 68 []); (B "assignment_expression" 882 2559 2573 68 68 [(B "identifier" 883 2559 2561 68 68 [] # "left"); (B "assignment_operator" 884 2562 2563 68 68 [(A "=" 885 2562 2563 68 68 [])] # "operator"); (B "identifier" 886 2564 2573 68 68 [] # "right")]); (A "," 887 2573 2574 68 68 []); (B "assignment_expression" 888 2575 2588 68 68 [(B "identifier" 889 2575 2579 68 68 [] # "left"); (B "assignment_operator" 890 2580 2581 68 68 [(A "=" 891 2580 2581 68 68 [])] # "operator"); (B "string_literal" 892 2582 2588 68 68 [] # "right")]); (A ")" 893 2588 2589 68 68 [])] # "arguments")] # "value")] # "declarator"); (A ";" 894 2589 2590 68 68 [])]); (B "local_variable_declaration" 895 2595 2759 69 72 [(B "array_type" 896 2595 2604 69 69 [(B "type_identifier" 897 2595 2602 69 69 [] # "element"); (B "dimensions" 898 2602 2604 69 69 [(A "[" 899 2602 2603 69 69 []); (A "]" 900 2603 2604 69 69 [])] # "dimensions")] # "type"); (B "variable_declarator" 901 2605 2758 69 72 [(B "identifier" 902 2605 2612 69 69 [] # "name"); (B "assignment_operator" 903 2613 2614 69 69 [(A "=" 904 2613 2614 69 69 [])]); (B "array_creation_expression" 905 2615 2758 69 72 [(A "new" 906 2615 2618 69 69 []); (B "generic_type" 907 2619 2632 69 69 [(B "type_identifier" 908 2619 2623 69 69 []); (B "type_arguments" 909 2623 2632 69 69 [(A "<" 910 2623 2624 69 69 []); (B "type_identifier" 911 2624 2631 69 69 []); (A ">" 912 2631 2632 69 69 [])])] # "type"); (B "array_initializer" 913 2632 2758 69 72 [(A "{" 914 2632 2633 69 69 []); (B "object_creation_expression" 915 2640 2692 70 70 [(A "new" 916 2640 2643 70 70 []); (B "type_identifier" 917 2644 2651 70 70 [] # "type"); (B "argument_list" 918 2651 2692 70 70 [(A "(" 919 2651 2652 70 70 []); (B "assignment_expression" 920 2652 2666 70 70 [(B "identifier" 921 2652 2654 70 70 [] # "left"); (B "assignment_operator" 922 2655 2656 70 70 [(A "=" 923 2655 2656 70 70 [])] # "operator"); (B "identifier" 924 2657 2666 70 70 [] # "right")]); (A "," 925 2666 2667 70 70 []); (B "assignment_expression" 926 2668 2691 70 70 [(B "identifier" 927 2668 2672 70 70 [] # "left"); (B "assignment_operator" 928 2673 2674 70 70 [(A "=" 929 2673 2674 70 70 [])] # "operator"); (B "string_literal" 930 2675 2691 70 70 [] # "right")]); (A ")" 931 2691 2692 70 70 [])] # "arguments")]); (A "," 932 2692 2693 70 70 []); (B "object_creation_expression" 933 2700 2752 71 71 [(A "new" 934 2700 2703 71 71 []); (B "type_identifier" 935 2704 2711 71 71 [] # "type"); (B "argument_list" 936 2711 2752 71 71 [(A "(" 937 2711 2712 71 71 []); (B "assignment_expression" 938 2712 2726 71 71 [(B "identifier" 939 2712 2714 71 71 [] # "left"); (B "assignment_operator" 940 2715 2716 71 71 [(A "=" 941 2715 2716 71 71 [])] # "operator"); (B "identifier" 942 2717 2726 71 71 [] # "right")]); (A "," 943 2726 2727 71 71 []); (B "assignment_expression" 944 2728 2751 71 71 [(B "identifier" 945 2728 2732 71 71 [] # "left"); (B "assignment_operator" 946 2733 2734 71 71 [(A "=" 947 2733 2734 71 71 [])] # "operator"); (B "string_literal" 948 2735 2751 71 71 [] # "right")]); (A ")" 949 2751 2752 71 71 [])] # "arguments")]); (A "}" 950 2757 2758 72 72 [])] # "value")] # "value")] # "declarator"); (A ";" 951 2758 2759 72 72 [])]); (B "expression_statement" 952 2764 2779 73 73 [(B "dml_expression" 953 2764 2778 73 73 [(B "dml_type" 954 2764 2770 73 73 [(B "delete" 955 2764 2770 73 73 [(A "delete" 956 2764 2770 73 73 [])])]); (B "identifier" 957 2771 2778 73 73 [] # "target")]); (A ";" 958 2778 2779 73 73 [])]); (B "expression_statement" 959 2784 2800 74 74 [(B "dml_expression" 960 2784 2799 74 74 [(B "dml_type" 961 2784 2790 74 74 [(B "delete" 962 2784 2790 74 74 [(A "delete" 963 2784 2790 74 74 [])])]); (B "identifier" 964 2791 2799 74 74 [] # "target")]); (A ";" 965 2799 2800 74 74 [])]); (B "expression_statement" 966 2805 2857 75 75 [(B "dml_expression" 967 2805 2856 75 75 [(B "dml_type" 968 2805 2811 75 75 [(B "delete" 969 2805 2811 75 75 [(A "delete" 970 2805 2811 75 75 [])])]); (B "object_creation_expression" 971 2812 2856 75 75 [(A "new" 972 2812 2815 75 75 []); (B "type_identifier" 973 2816 2823 75 75 [] # "type"); (B "argument_list" 974 2823 2856 75 75 [(A "(" 975 2823 2824 75 75 []); (B "assignment_expression" 976 2824 2838 75 75 [(B "identifier" 977 2824 2826 75 75 [] # "left"); (B "assignment_operator" 978 2827 2828 75 75 [(A "=" 979 2827 2828 75 75 [])] # "operator"); (B "identifier" 980 2829 2838 75 75 [] # "right")]); (A "," 981 2838 2839 75 75 []); (B "assignment_expression" 982 2840 2855 75 75 [(B "identifier" 983 2840 2844 75 75 [] # "left"); (B "assignment_operator" 984 2844 2845 75 75 [(A "=" 985 2844 2845 75 75 [])] # "operator"); (B "string_literal" 986 2845 2855 75 75 [] # "right")]); (A ")" 987 2855 2856 75 75 [])] # "arguments")] # "target")]); (A ";" 988 2856 2857 75 75 [])]); (B "expression_statement" 989 2862 3016 76 79 [(B "dml_expression" 990 2862 3015 76 79 [(B "dml_type" 991 2862 2868 76 76 [(B "delete" 992 2862 2868 76 76 [(A "delete" 993 2862 2868 76 76 [])])]); (B "array_creation_expression" 994 2869 3015 76 79 [(A "new" 995 2869 2872 76 76 []); (B "generic_type" 996 2873 2886 76 76 [(B "type_identifier" 997 2873 2877 76 76 []); (B "type_arguments" 998 2877 2886 76 76 [(A "<" 999 2877 2878 76 76 []); (B "type_identifier" 1000 2878 2885 76 76 []); (A ">" 1001 2885 2886 76 76 [])])] # "type"); (B "array_initializer" 1002 2886 3015 76 79 [(A "{" 1003 2886 2887 76 76 []); (B "object_creation_expression" 1004 2894 2948 77 77 [(A "new" 1005 2894 2897 77 77 []); (B "type_identifier" 1006 2898 2905 77 77 [] # "type"); (B "argument_list" 1007 2905 2948 77 77 [(A "(" 1008 2905 2906 77 77 []); (B "assignment_expression" 1009 2906 2920 77 77 [(B "identifier" 1010 2906 2908 77 77 [] # "left"); (B "assignment_operator" 1011 2909 2910 77 77 [(A "=" 1012 2909 2910 77 77 [])] # "operator"); (B "identifier" 1013 2911 2920 77 77 [] # "right")]); (A "," 1014 2920 2921 77 77 []); (B "assignment_expression" 1015 2922 2947 77 77 [(B "identifier" 1016 2922 2926 77 77 [] # "left"); (B "assignment_operator" 1017 2927 2928 77 77 [(A "=" 1018 2927 2928 77 77 [])] # "operator"); (B "string_literal" 1019 2929 2947 77 77 [] # "right")]); (A ")" 1020 2947 2948 77 77 [])] # "arguments")]); (A "," 1021 2948 2949 77 77 []); (B "object_creation_expression" 1022 2956 3009 78 78 [(A "new" 1023 2956 2959 78 78 []); (B "type_identifier" 1024 2960 2967 78 78 [] # "type"); (B "argument_list" 1025 2967 3009 78 78 [(A "(" 1026 2967 2968 78 78 []); (B "assignment_expression" 1027 2968 2982 78 78 [(B "identifier" 1028 2968 2970 78 78 [] # "left"); (B "assignment_operator" 1029 2971 2972 78 78 [(A "=" 1030 2971 2972 78 78 [])] # "operator"); (B "identifier" 1031 2973 2982 78 78 [] # "right")]); (A "," 1032 2982 2983 78 78 []); (B "assignment_expression" 1033 2984 3008 78 78 [(B "identifier" 1034 2984 2988 78 78 [] # "left"); (B "assignment_operator" 1035 2989 2990 78 78 [(A "=" 1036 2989 2990 78 78 [])] # "operator"); (B "string_literal" 1037 2991 3008 78 78 [] # "right")]); (A ")" 1038 3008 3009 78 78 [])] # "arguments")]); (A "}" 1039 3014 3015 79 79 [])] # "value")] # "target")]); (A ";" 1040 3015 3016 79 79 [])]); (B "expression_statement" 1041 3021 3044 80 80 [(B "dml_expression" 1042 3021 3043 80 80 [(B "dml_type" 1043 3021 3027 80 80 [(B "delete" 1044 3021 3027 80 80 [(A "delete" 1045 3021 3027 80 80 [])])]); (B "dml_security_mode" 1046 3028 3035 80 80 [(A "as" 1047 3028 3030 80 80 []); (B "user" 1048 3031 3035 80 80 [(A "user" 1049 3031 3035 80 80 [])])]); (B "identifier" 1050 3036 3043 80 80 [] # "target")]); (A ";" 1051 3043 3044 80 80 [])]); (B "expression_statement" 1052 3049 3074 81 81 [(B "dml_expression" 1053 3049 3073 81 81 [(B "dml_type" 1054 3049 3055 81 81 [(B "delete" 1055 3049 3055 81 81 [(A "delete" 1056 3049 3055 81 81 [])])]); (B "dml_security_mode" 1057 3056 3065 81 81 [(A "as" 1058 3056 3058 81 81 []); (B "system" 1059 3059 3065 81 81 [(A "system" 1060 3059 3065 81 81 [])])]); (B "identifier" 1061 3066 3073 81 81 [] # "target")]); (A ";" 1062 3073 3074 81 81 [])]); (A "}" 1063 3077 3078 82 82 [])] # "body")]); (B "method_declaration" 1064 3081 3829 83 102 [(B "void_type" 1065 3081 3085 83 83 [] # "type"); (B "identifier" 1066 3086 3098 83 83 [] # "name"); (B "formal_parameters" 1067 3098 3100 83 83 [(A "(" 1068 3098 3099 83 83 []); (A ")" 1069 3099 3100 83 83 [])] # "parameters"); (B "block" 1070 3101 3829 83 102 [(A "{" 1071 3101 3102 83 83 []); (B "local_variable_declaration" 1072 3107 3167 84 84 [(B "type_identifier" 1073 3107 3109 84 84 [] # "type"); (B "variable_declarator" 1074 3110 3166 84 84 [(B "identifier" 1075 3110 3119 84 84 [] # "name"); (B "assignment_operator" 1076 3120 3121 84 84 [(A "=" 1077 3120 3121 84 84 [])]); (B "field_access" 1078 3122 3166 84 84 [(B "query_expression" 1079 3122 3163 84 84 [(A "[" 1080 3122 3123 84 84 []); (B "soql_query_body" 1081 3123 3162 84 84 [(B "select_clause" 1082 3123 3132 84 84 [(A "SELECT" 1083 3123 3129 84 84 []); (B "field_identifier" 1084 3130 3132 84 84 [(B "identifier" 1085 3130 3132 84 84 [])])] # "select_clause"); (B "from_clause" 1086 3133 3145 84 84 [(A "FROM" 1087 3133 3137 84 84 []); (B "storage_identifier" 1088 3138 3145 84 84 [(B "identifier" 1089 3138 3145 84 84 [])])] # "from_clause"); (B "limit_clause" 1090 3146 3153 84 84 [(A "LIMIT" 1091 3146 3151 84 84 []); (B "int" 1092 3152 3153 84 84 [])] # "limit_clause"); (B "all_rows_clause" 1093 3154 3162 84 84 [(A "ALL" 1094 3154 3157 84 84 []); (A "ROWS" 1095 3158 3162 84 84 [])] # "all_rows_clause")]); (A "]" 1096 3162 3163 84 84 [])] # "object"); (A "." 1097 3163 3164 84 84 []); (B "identifier" 1098 3164 3166 84 84 [] # "field")] # "value")] # "declarator"); (A ";" 1099 3166 3167 84 84 [])]); (B "local_variable_declaration" 1100 3172 3214 85 85 [(B "array_type" 1101 3172 3176 85 85 [(B "type_identifier" 1102 3172 3174 85 85 [] # "element"); (B "dimensions" 1103 3174 3176 85 85 [(A "[" 1104 3174 3175 85 85 []); (A "]" 1105 3175 3176 85 85 [])] # "dimensions")] # "type"); (B "variable_declarator" 1106 3177 3213 85 85 [(B "identifier" 1107 3177 3187 85 85 [] # "name"); (B "assignment_operator" 1108 3188 3189 85 85 [(A "=" 1109 3188 3189 85 85 [])]); (B "array_creation_expression" 1110 3190 3213 85 85 [(A "new" 1111 3190 3193 85 85 []); (B "generic_type" 1112 3194 3202 85 85 [(B "type_identifier" 1113 3194 3198 85 85 []); (B "type_arguments" 1114 3198 3202 85 85 [(A "<" 1115 3198 3199 85 85 []); (B "type_identifier" 1116 3199 3201 85 85 []); (A ">" 1117 3201 3202 85 85 [])])] # "type"); (B "array_initializer" 1118 3202 3213 85 85 [(A "{" 1119 3202 3203 85 85 []); (B "identifier" 1120 3203 3212 85 85 []); (A "}" 1121 3212 3213 85 85 [])] # "value")] # "value")] # "declarator"); (A ";" 1122 3213 3214 85 85 [])]); (B "local_variable_declaration" 1123 3219 3280 86 86 [(B "type_identifier" 1124 3219 3226 86 86 [] # "type"); (B "variable_declarator" 1125 3227 3279 86 86 [(B "identifier" 1126 3227 3234 86 86 [] # "name"); (B "assignment_operator" 1127 3235 3236 86 86 [(A "=" 1128 3235 3236 86 86 [])]); (B "object_creation_expression" 1129 3237 3279 86 86 [(A "new" 1130 3237 3240 86 86 []); (B "type_identifier" 1131 3241 3248 86 86 [] # "type"); (B "argument_list" 1132 3248 3279 86 86 [(A "(" 1133 3248 3249 86 86 []); (B "assignment_expression" 1134 3249 3263 86 86 [(B "identifier" 1135 3249 3251 86 86 [] # "left"); (B "assignment_operator" 1136 3252 3253 86 86 [(A "=" 1137 3252 3253 86 86 [])] # "operator"); (B "identifier" 1138 3254 3263 86 86 [] # "right")]); (A "," 1139 3263 3264 86 86 []); (B "assignment_expression" 1140 3265 3278 86 86 [(B "identifier" 1141 3265 3269 86 86 [] # "left"); (B "assignment_operator" 1142 3270 3271 86 86 [(A "=" 1143 3270 3271 86 86 [])] # "operator"); (B "string_literal" 1144 3272 3278 86 86 [] # "right")]); (A ")" 1145 3278 3279 86 86 [])] # "arguments")] # "value")] # "declarator"); (A ";" 1146 3279 3280 86 86 [])]); (B "local_variable_declaration" 1147 3285 3449 87 90 [(B "array_type" 1148 3285 3294 87 87 [(B "type_identifier" 1149 3285 3292 87 87 [] # "element"); (B "dimensions" 1150 3292 3294 87 87 [(A "[" 1151 3292 3293 87 87 []); (A "]" 1152 3293 3294 87 87 [])] # "dimensions")] # "type"); (B "variable_declarator" 1153 3295 3448 87 90 [(B "identifier" 1154 3295 3302 87 87 [] # "name"); (B "assignment_operator" 1155 3303 3304 87 87 [(A "=" 1156 3303 3304 87 87 [])]); (B "array_creation_expression" 1157 3305 3448 87 90 [(A "new" 1158 3305 3308 87 87 []); (B "generic_type" 1159 3309 3322 87 87 [(B "type_identifier" 1160 3309 3313 87 87 []); (B "type_arguments" 1161 3313 3322 87 87 [(A "<" 1162 3313 3314 87 87 []); (B "type_identifier" 1163 3314 3321 87 87 []); (A ">" 1164 3321 3322 87 87 [])])] # "type"); (B "array_initializer" 1165 3322 3448 87 90 [(A "{" 1166 3322 3323 87 87 []); (B "object_creation_expression" 1167 3330 3382 88 88 [(A "new" 1168 3330 3333 88 88 []); (B "type_identifier" 1169 3334 3341 88 88 [] # "type"); (B "argument_list" 1170 3341 3382 88 88 [(A "(" 1171 3341 3342 88 88 []); (B "assignment_expression" 1172 3342 3356 88 88 [(B "identifier" 1173 3342 3344 88 88 [] # "left"); (B "assignment_operator" 1174 3345 3346 88 88 [(A "=" 1175 3345 3346 88 88 [])] # "operator"); (B "identifier" 1176 3347 3356 88 88 [] # "right")]); (A "," 1177 3356 3357 88 88 []); (B "assignment_expression" 1178 3358 3381 88 88 [(B "identifier" 1179 3358 3362 88 88 [] # "left"); (B "assignment_operator" 1180 3363 3364 88 88 [(A "=" 1181 3363 3364 88 88 [])] # "operator"); (B "string_literal" 1182 3365 3381 88 88 [] # "right")]); (A ")" 1183 3381 3382 88 88 [])] # "arguments")]); (A "," 1184 3382 3383 88 88 []); (B "object_creation_expression" 1185 3390 3442 89 89 [(A "new" 1186 3390 3393 89 89 []); (B "type_identifier" 1187 3394 3401 89 89 [] # "type"); (B "argument_list" 1188 3401 3442 89 89 [(A "(" 1189 3401 3402 89 89 []); (B "assignment_expression" 1190 3402 3416 89 89 [(B "identifier" 1191 3402 3404 89 89 [] # "left"); (B "assignment_operator" 1192 3405 3406 89 89 [(A "=" 1193 3405 3406 89 89 [])] # "operator"); (B "identifier" 1194 3407 3416 89 89 [] # "right")]); (A "," 1195 3416 3417 89 89 []); (B "assignment_expression" 1196 3418 3441 89 89 [(B "identifier" 1197 3418 3422 89 89 [] # "left"); (B "assignment_operator" 1198 3423 3424 89 89 [(A "=" 1199 3423 3424 89 89 [])] # "operator"); (B "string_literal" 1200 3425 3441 89 89 [] # "right")]); (A ")" 1201 3441 3442 89 89 [])] # "arguments")]); (A "}" 1202 3447 3448 90 90 [])] # "value")] # "value")] # "declarator"); (A ";" 1203 3448 3449 90 90 [])]); (B "expression_statement" 1204 3454 3471 91 91 [(B "dml_expression" 1205 3454 3470 91 91 [(B "dml_type" 1206 3454 3462 91 91 [(B "undelete" 1207 3454 3462 91 91 [(A "undelete" 1208 3454 3462 91 91 [])])]); (B "identifier" 1209 3463 3470 91 91 [] # "target")]); (A ";" 1210 3470 3471 91 91 [])]); (B "expression_statement" 1211 3476 3495 92 92 [(B "dml_expression" 1212 3476 3494 92 92 [(B "dml_type" 1213 3476 3484 92 92 [(B "undelete" 1214 3476 3484 92 92 [(A "undelete" 1215 3476 3484 92 92 [])])]); (B "identifier" 1216 3485 3494 92 92 [] # "target")]); (A ";" 1217 3494 3495 92 92 [])]); (B "expression_statement" 1218 3500 3518 93 93 [(B "dml_expression" 1219 3500 3517 93 93 [(B "dml_type" 1220 3500 3508 93 93 [(B "undelete" 1221 3500 3508 93 93 [(A "undelete" 1222 3500 3508 93 93 [])])]); (B "identifier" 1223 3509 3517 93 93 [] # "target")]); (A ";" 1224 3517 3518 93 93 [])]); (B "expression_statement" 1225 3523 3543 94 94 [(B "dml_expression" 1226 3523 3542 94 94 [(B "dml_type" 1227 3523 3531 94 94 [(B "undelete" 1228 3523 3531 94 94 [(A "undelete" 1229 3523 3531 94 94 [])])]); (B "identifier" 1230 3532 3542 94 94 [] # "target")]); (A ";" 1231 3542 3543 94 94 [])]); (B "expression_statement" 1232 3548 3602 95 95 [(B "dml_expression" 1233 3548 3601 95 95 [(B "dml_type" 1234 3548 3556 95 95 [(B "undelete" 1235 3548 3556 95 95 [(A "undelete" 1236 3548 3556 95 95 [])])]); (B "object_creation_expression" 1237 3557 3601 95 95 [(A "new" 1238 3557 3560 95 95 []); (B "type_identifier" 1239 3561 3568 95 95 [] # "type"); (B "argument_list" 1240 3568 3601 95 95 [(A "(" 1241 3568 3569 95 95 []); (B "assignment_expression" 1242 3569 3583 95 95 [(B "identifier" 1243 3569 3571 95 95 [] # "left"); (B "assignment_operator" 1244 3572 3573 95 95 [(A "=" 1245 3572 3573 95 95 [])] # "operator"); (B "identifier" 1246 3574 3583 95 95 [] # "right")]); (A "," 1247 3583 3584 95 95 []); (B "assignment_expression" 1248 3585 3600 95 95 [(B "identifier" 1249 3585 3589 95 95 [] # "left"); (B "assignment_operator" 1250 3589 3590 95 95 [(A "=" 1251 3589 3590 95 95 [])] # "operator"); (B "string_literal" 1252 3590 3600 95 95 [] # "right")]); (A ")" 1253 3600 3601 95 95 [])] # "arguments")] # "target")]); (A ";" 1254 3601 3602 95 95 [])]); (B "expression_statement" 1255 3607 3763 96 99 [(B "dml_expression" 1256 3607 3762 96 99 [(B "dml_type" 1257 3607 3615 96 96 [(B "undelete" 1258 3607 3615 96 96 [(A "undelete" 1259 3607 3615 96 96 [])])]); (B "array_creation_expression" 1260 3616 3762 96 99 [(A "new" 1261 3616 3619 96 96 []); (B "generic_type" 1262 3620 3633 96 96 [(B "type_identifier" 1263 3620 3624 96 96 []); (B "type_arguments" 1264 3624 3633 96 96 [(A "<" 1265 3624 3625 96 96 []); (B "type_identifier" 1266 3625 3632 96 96 []); (A ">" 1267 3632 3633 96 96 [])])] # "type"); (B "array_initializer" 1268 3633 3762 96 99 [(A "{" 1269 3633 3634 96 96 []); (B "object_creation_expression" 1270 3641 3695 97 97 [(A "new" 1271 3641 3644 97 97 []); (B "type_identifier" 1272 3645 3652 97 97 [] # "type"); (B "argument_list" 1273 3652 3695 97 97 [(A "(" 1274 3652 3653 97 97 []); (B "assignment_expression" 1275 3653 3667 97 97 [(B "identifier" 1276 3653 3655 97 97 [] # "left"); (B "assignment_operator" 1277 3656 3657 97 97 [(A "=" 1278 3656 3657 97 97 [])] # "operator"); (B "identifier" 1279 3658 3667 97 97 [] # "right")]); (A "," 1280 3667 3668 97 97 []); (B "assignment_expression" 1281 3669 3694 97 97 [(B "identifier" 1282 3669 3673 97 97 [] # "left"); (B "assignment_operator" 1283 3674 3675 97 97 [(A "=" 1284 3674 3675 97 97 [])] # "operator"); (B "string_literal" 1285 3676 3694 97 97 [] # "right")]); (A ")" 1286 3694 3695 97 97 [])] # "arguments")]); (A "," 1287 3695 3696 97 97 []); (B "object_creation_expression" 1288 3703 3756 98 98 [(A "new" 1289 3703 3706 98 98 []); (B "type_identifier" 1290 3707 3714 98 98 [] # "type"); (B "argument_list" 1291 3714 3756 98 98 [(A "(" 1292 3714 3715 98 98 []); (B "assignment_expression" 1293 3715 3729 98 98 [(B "identifier" 1294 3715 3717 98 98 [] # "left"); (B "assignment_operator" 1295 3718 3719 98 98 [(A "=" 1296 3718 3719 98 98 [])] # "operator"); (B "identifier" 1297 3720 3729 98 98 [] # "right")]); (A "," 1298 3729 3730 98 98 []); (B "assignment_expression" 1299 3731 3755 98 98 [(B "identifier" 1300 3731 3735 98 98 [] # "left"); (B "assignment_operator" 1301 3736 3737 98 98 [(A "=" 1302 3736 3737 98 98 [])] # "operator"); (B "string_literal" 1303 3738 3755 98 98 [] # "right")]); (A ")" 1304 3755 3756 98 98 [])] # "arguments")]); (A "}" 1305 3761 3762 99 99 [])] # "value")] # "target")]); (A ";" 1306 3762 3763 99 99 [])]); (B "expression_statement" 1307 3768 3793 100 100 [(B "dml_expression" 1308 3768 3792 100 100 [(B "dml_type" 1309 3768 3776 100 100 [(B "undelete" 1310 3768 3776 100 100 [(A "undelete" 1311 3768 3776 100 100 [])])]); (B "dml_security_mode" 1312 3777 3784 100 100 [(A "as" 1313 3777 3779 100 100 []); (B "user" 1314 3780 3784 100 100 [(A "user" 1315 3780 3784 100 100 [])])]); (B "identifier" 1316 3785 3792 100 100 [] # "target")]); (A ";" 1317 3792 3793 100 100 [])]); (B "expression_statement" 1318 3798 3825 101 101 [(B "dml_expression" 1319 3798 3824 101 101 [(B "dml_type" 1320 3798 3806 101 101 [(B "undelete" 1321 3798 3806 101 101 [(A "undelete" 1322 3798 3806 101 101 [])])]); (B "dml_security_mode" 1323 3807 3816 101 101 [(A "as" 1324 3807 3809 101 101 []); (B "system" 1325 3810 3816 101 101 [(A "system" 1326 3810 3816 101 101 [])])]); (B "identifier" 1327 3817 3824 101 101 [] # "target")]); (A ";" 1328 3824 3825 101 101 [])]); (A "}" 1329 3828 3829 102 102 [])] # "body")]); (B "method_declaration" 1330 3832 4873 103 123 [(B "void_type" 1331 3832 3836 103 103 [] # "type"); (B "identifier" 1332 3837 3846 103 103 [] # "name"); (B "formal_parameters" 1333 3846 3848 103 103 [(A "(" 1334 3846 3847 103 103 []); (A ")" 1335 3847 3848 103 103 [])] # "parameters"); (B "block" 1336 3849 4873 103 123 [(A "{" 1337 3849 3850 103 103 []); (B "local_variable_declaration" 1338 3855 3906 104 104 [(B "type_identifier" 1339 3855 3857 104 104 [] # "type"); (B "variable_declarator" 1340 3858 3905 104 104 [(B "identifier" 1341 3858 3867 104 104 [] # "name"); (B "assignment_operator" 1342 3868 3869 104 104 [(A "=" 1343 3868 3869 104 104 [])]); (B "field_access" 1344 3870 3905 104 104 [(B "query_expression" 1345 3870 3902 104 104 [(A "[" 1346 3870 3871 104 104 []); (B "soql_query_body" 1347 3871 3901 104 104 [(B "select_clause" 1348 3871 3880 104 104 [(A "SELECT" 1349 3871 3877 104 104 []); (B "field_identifier" 1350 3878 3880 104 104 [(B "identifier" 1351 3878 3880 104 104 [])])] # "select_clause"); (B "from_clause" 1352 3881 3893 104 104 [(A "FROM" 1353 3881 3885 104 104 []); (B "storage_identifier" 1354 3886 3893 104 104 [(B "identifier" 1355 3886 3893 104 104 [])])] # "from_clause"); (B "limit_clause" 1356 3894 3901 104 104 [(A "LIMIT" 1357 3894 3899 104 104 []); (B "int" 1358 3900 3901 104 104 [])] # "limit_clause")]); (A "]" 1359 3901 3902 104 104 [])] # "object"); (A "." 1360 3902 3903 104 104 []); (B "identifier" 1361 3903 3905 104 104 [] # "field")] # "value")] # "declarator"); (A ";" 1362 3905 3906 104 104 [])]); (B "local_variable_declaration" 1363 3911 3953 105 105 [(B "array_type" 1364 3911 3915 105 105 [(B "type_identifier" 1365 3911 3913 105 105 [] # "element"); (B "dimensions" 1366 3913 3915 105 105 [(A "[" 1367 3913 3914 105 105 []); (A "]" 1368 3914 3915 105 105 [])] # "dimensions")] # "type"); (B "variable_declarator" 1369 3916 3952 105 105 [(B "identifier" 1370 3916 3926 105 105 [] # "name"); (B "assignment_operator" 1371 3927 3928 105 105 [(A "=" 1372 3927 3928 105 105 [])]); (B "array_creation_expression" 1373 3929 3952 105 105 [(A "new" 1374 3929 3932 105 105 []); (B "generic_type" 1375 3933 3941 105 105 [(B "type_identifier" 1376 3933 3937 105 105 []); (B "type_arguments" 1377 3937 3941 105 105 [(A "<" 1378 3937 3938 105 105 []); (B "type_identifier" 1379 3938 3940 105 105 []); (A ">" 1380 3940 3941 105 105 [])])] # "type"); (B "array_initializer" 1381 3941 3952 105 105 [(A "{" 1382 3941 3942 105 105 []); (B "identifier" 1383 3942 3951 105 105 []); (A "}" 1384 3951 3952 105 105 [])] # "value")] # "value")] # "declarator"); (A ";" 1385 3952 3953 105 105 [])]); (B "local_variable_declaration" 1386 3958 4019 106 106 [(B "type_identifier" 1387 3958 3965 106 106 [] # "type"); (B "variable_declarator" 1388 3966 4018 106 106 [(B "identifier" 1389 3966 3973 106 106 [] # "name"); (B "assignment_operator" 1390 3974 3975 106 106 [(A "=" 1391 3974 3975 106 106 [])]); (B "object_creation_expression" 1392 3976 4018 106 106 [(A "new" 1393 3976 3979 106 106 []); (B "type_identifier" 1394 3980 3987 106 106 [] # "type"); (B "argument_list" 1395 3987 4018 106 106 [(A "(" 1396 3987 3988 106 106 []); (B "assignment_expression" 1397 3988 4002 106 106 [(B "identifier" 1398 3988 3990 106 106 [] # "left"); (B "assignment_operator" 1399 3991 3992 106 106 [(A "=" 1400 3991 3992 106 106 [])] # "operator"); (B "identifier" 1401 3993 4002 106 106 [] # "right")]); (A "," 1402 4002 4003 106 106 []); (B "assignment_expression" 1403 4004 4017 106 106 [(B "identifier" 1404 4004 4008 106 106 [] # "left"); (B "assignment_operator" 1405 4009 4010 106 106 [(A "=" 1406 4009 4010 106 106 [])] # "operator"); (B "string_literal" 1407 4011 4017 106 106 [] # "right")]); (A ")" 1408 4017 4018 106 106 [])] # "arguments")] # "value")] # "declarator"); (A ";" 1409 4018 4019 106 106 [])]); (B "local_variable_declaration" 1410 4024 4100 107 107 [(B "type_identifier" 1411 4024 4031 107 107 [] # "type"); (B "variable_declarator" 1412 4032 4099 107 107 [(B "identifier" 1413 4032 4046 107 107 [] # "name"); (B "assignment_operator" 1414 4047 4048 107 107 [(A "=" 1415 4047 4048 107 107 [])]); (B "object_creation_expression" 1416 4049 4099 107 107 [(A "new" 1417 4049 4052 107 107 []); (B "type_identifier" 1418 4053 4060 107 107 [] # "type"); (B "argument_list" 1419 4060 4099 107 107 [(A "(" 1420 4060 4061 107 107 []); (B "assignment_expression" 1421 4061 4075 107 107 [(B "identifier" 1422 4061 4063 107 107 [] # "left"); (B "assignment_operator" 1423 4064 4065 107 107 [(A "=" 1424 4064 4065 107 107 [])] # "operator"); (B "identifier" 1425 4066 4075 107 107 [] # "right")]); (A "," 1426 4075 4076 107 107 []); (B "assignment_expression" 1427 4077 4098 107 107 [(B "identifier" 1428 4077 4081 107 107 [] # "left"); (B "assignment_operator" 1429 4082 4083 107 107 [(A "=" 1430 4082 4083 107 107 [])] # "operator"); (B "string_literal" 1431 4084 4098 107 107 [] # "right")]); (A ")" 1432 4098 4099 107 107 [])] # "arguments")] # "value")] # "declarator"); (A ";" 1433 4099 4100 107 107 [])]); (B "local_variable_declaration" 1434 4105 4269 108 111 [(B "array_type" 1435 4105 4114 108 108 [(B "type_identifier" 1436 4105 4112 108 108 [] # "element"); (B "dimensions" 1437 4112 4114 108 108 [(A "[" 1438 4112 4113 108 108 []); (A "]" 1439 4113 4114 108 108 [])] # "dimensions")] # "type"); (B "variable_declarator" 1440 4115 4268 108 111 [(B "identifier" 1441 4115 4122 108 108 [] # "name"); (B "assignment_operator" 1442 4123 4124 108 108 [(A "=" 1443 4123 4124 108 108 [])]); (B "array_creation_expression" 1444 4125 4268 108 111 [(A "new" 1445 4125 4128 108 108 []); (B "generic_type" 1446 4129 4142 108 108 [(B "type_identifier" 1447 4129 4133 108 108 []); (B "type_arguments" 1448 4133 4142 108 108 [(A "<" 1449 4133 4134 108 108 []); (B "type_identifier" 1450 4134 4141 108 108 []); (A ">" 1451 4141 4142 108 108 [])])] # "type"); (B "array_initializer" 1452 4142 4268 108 111 [(A "{" 1453 4142 4143 108 108 []); (B "object_creation_expression" 1454 4150 4202 109 109 [(A "new" 1455 4150 4153 109 109 []); (B "type_identifier" 1456 4154 4161 109 109 [] # "type"); (B "argument_list" 1457 4161 4202 109 109 [(A "(" 1458 4161 4162 109 109 []); (B "assignment_expression" 1459 4162 4176 109 109 [(B "identifier" 1460 4162 4164 109 109 [] # "left"); (B "assignment_operator" 1461 4165 4166 109 109 [(A "=" 1462 4165 4166 109 109 [])] # "operator"); (B "identifier" 1463 4167 4176 109 109 [] # "right")]); (A "," 1464 4176 4177 109 109 []); (B "assignment_expression" 1465 4178 4201 109 109 [(B "identifier" 1466 4178 4182 109 109 [] # "left"); (B "assignment_operator" 1467 4183 4184 109 109 [(A "=" 1468 4183 4184 109 109 [])] # "operator"); (B "string_literal" 1469 4185 4201 109 109 [] # "right")]); (A ")" 1470 4201 4202 109 109 [])] # "arguments")]); (A "," 1471 4202 4203 109 109 []); (B "object_creation_expression" 1472 4210 4262 110 110 [(A "new" 1473 4210 4213 110 110 []); (B "type_identifier" 1474 4214 4221 110 110 [] # "type"); (B "argument_list" 1475 4221 4262 110 110 [(A "(" 1476 4221 4222 110 110 []); (B "assignment_expression" 1477 4222 4236 110 110 [(B "identifier" 1478 4222 4224 110 110 [] # "left"); (B "assignment_operator" 1479 4225 4226 110 110 [(A "=" 1480 4225 4226 110 110 [])] # "operator"); (B "identifier" 1481 4227 4236 110 110 [] # "right")]); (A "," 1482 4236 4237 110 110 []); (B "assignment_expression" 1483 4238 4261 110 110 [(B "identifier" 1484 4238 4242 110 110 [] # "left"); (B "assignment_operator" 1485 4243 4244 110 110 [(A "=" 1486 4243 4244 110 110 [])] # "operator"); (B "string_literal" 1487 4245 4261 110 110 [] # "right")]); (A ")" 1488 4261 4262 110 110 [])] # "arguments")]); (A "}" 1489 4267 4268 111 111 [])] # "value")] # "value")] # "declarator"); (A ";" 1490 4268 4269 111 111 [])]); (B "expression_statement" 1491 4274 4303 112 112 [(B "dml_expression" 1492 4274 4302 112 112 [(B "dml_type" 1493 4274 4279 112 112 [(B "merge" 1494 4274 4279 112 112 [(A "merge" 1495 4274 4279 112 112 [])])]); (B "identifier" 1496 4280 4287 112 112 [] # "target"); (B "identifier" 1497 4288 4302 112 112 [] # "merge_with")]); (A ";" 1498 4302 4303 112 112 [])]); (B "expression_statement" 1499 4308 4331 113 113 [(B "dml_expression" 1500 4308 4330 113 113 [(B "dml_type" 1501 4308 4313 113 113 [(B "merge" 1502 4308 4313 113 113 [(A "merge" 1503 4308 4313 113 113 [])])]); (B "identifier" 1504 4314 4321 113 113 [] # "target"); (B "identifier" 1505 4322 4330 113 113 [] # "merge_with")]); (A ";" 1506 4330 4331 113 113 [])]); (B "expression_statement" 1507 4336 4360 114 114 [(B "dml_expression" 1508 4336 4359 114 114 [(B "dml_type" 1509 4336 4341 114 114 [(B "merge" 1510 4336 4341 114 114 [(A "merge" 1511 4336 4341 114 114 [])])]); (B "identifier" 1512 4342 4349 114 114 [] # "target"); (B "identifier" 1513 4350 4359 114 114 [] # "merge_with")]); (A ";" 1514 4359 4360 114 114 [])]); (B "expression_statement" 1515 4365 4390 115 115 [(B "dml_expression" 1516 4365 4389 115 115 [(B "dml_type" 1517 4365 4370 115 115 [(B "merge" 1518 4365 4370 115 115 [(A "merge" 1519 4365 4370 115 115 [])])]); (B "identifier" 1520 4371 4378 115 115 [] # "target"); (B "identifier" 1521 4379 4389 115 115 [] # "merge_with")]); (A ";" 1522 4389 4390 115 115 [])]); (B "expression_statement" 1523 4395 4427 116 116 [(B "dml_expression" 1524 4395 4426 116 116 [(B "dml_type" 1525 4395 4400 116 116 [(B "merge" 1526 4395 4400 116 116 [(A "merge" 1527 4395 4400 116 116 [])])]); (B "dml_security_mode" 1528 4401 4408 116 116 [(A "as" 1529 4401 4403 116 116 []); (B "user" 1530 4404 4408 116 116 [(A "user" 1531 4404 4408 116 116 [])])]); (B "identifier" 1532 4409 4416 116 116 [] # "target"); (B "identifier" 1533 4417 4426 116 116 [] # "merge_with")]); (A ";" 1534 4426 4427 116 116 [])]); (B "expression_statement" 1535 4432 4467 117 117 [(B "dml_expression" 1536 4432 4466 117 117 [(B "dml_type" 1537 4432 4437 117 117 [(B "merge" 1538 4432 4437 117 117 [(A "merge" 1539 4432 4437 117 117 [])])]); (B "dml_security_mode" 1540 4438 4447 117 117 [(A "as" 1541 4438 4440 117 117 []); (B "system" 1542 4441 4447 117 117 [(A "system" 1543 4441 4447 117 117 [])])]); (B "identifier" 1544 4448 4455 117 117 [] # "target"); (B "identifier" 1545 4456 4466 117 117 [] # "merge_with")]); (A ";" 1546 4466 4467 117 117 [])]); (B "expression_statement" 1547 4473 4573 119 119 [(B "dml_expression" 1548 4473 4572 119 119 [(B "dml_type" 1549 4473 4478 119 119 [(B "merge" 1550 4473 4478 119 119 [(A "merge" 1551 4473 4478 119 119 [])])]); (B "object_creation_expression" 1552 4479 4525 119 119 [(A "new" 1553 4479 4482 119 119 []); (B "type_identifier" 1554 4483 4490 119 119 [] # "type"); (B "argument_list" 1555 4490 4525 119 119 [(A "(" 1556 4490 4491 119 119 []); (B "assignment_expression" 1557 4491 4505 119 119 [(B "identifier" 1558 4491 4493 119 119 [] # "left"); (B "assignment_operator" 1559 4494 4495 119 119 [(A "=" 1560 4494 4495 119 119 [])] # "operator"); (B "identifier" 1561 4496 4505 119 119 [] # "right")]); (A "," 1562 4505 4506 119 119 []); (B "assignment_expression" 1563 4507 4524 119 119 [(B "identifier" 1564 4507 4511 119 119 [] # "left"); (B "assignment_operator" 1565 4512 4513 119 119 [(A "=" 1566 4512 4513 119 119 [])] # "operator"); (B "string_literal" 1567 4514 4524 119 119 [] # "right")]); (A ")" 1568 4524 4525 119 119 [])] # "arguments")] # "target"); (B "object_creation_expression" 1569 4526 4572 119 119 [(A "new" 1570 4526 4529 119 119 []); (B "type_identifier" 1571 4530 4537 119 119 [] # "type"); (B "argument_list" 1572 4537 4572 119 119 [(A "(" 1573 4537 4538 119 119 []); (B "assignment_expression" 1574 4538 4552 119 119 [(B "identifier" 1575 4538 4540 119 119 [] # "left"); (B "assignment_operator" 1576 4541 4542 119 119 [(A "=" 1577 4541 4542 119 119 [])] # "operator"); (B "identifier" 1578 4543 4552 119 119 [] # "right")]); (A "," 1579 4552 4553 119 119 []); (B "assignment_expression" 1580 4554 4571 119 119 [(B "identifier" 1581 4554 4558 119 119 [] # "left"); (B "assignment_operator" 1582 4559 4560 119 119 [(A "=" 1583 4559 4560 119 119 [])] # "operator"); (B "string_literal" 1584 4561 4571 119 119 [] # "right")]); (A ")" 1585 4571 4572 119 119 [])] # "arguments")] # "merge_with")]); (A ";" 1586 4572 4573 119 119 [])]); (B "expression_statement" 1587 4578 4697 120 120 [(B "dml_expression" 1588 4578 4696 120 120 [(B "dml_type" 1589 4578 4583 120 120 [(B "merge" 1590 4578 4583 120 120 [(A "merge" 1591 4578 4583 120 120 [])])]); (B "object_creation_expression" 1592 4584 4630 120 120 [(A "new" 1593 4584 4587 120 120 []); (B "type_identifier" 1594 4588 4595 120 120 [] # "type"); (B "argument_list" 1595 4595 4630 120 120 [(A "(" 1596 4595 4596 120 120 []); (B "assignment_expression" 1597 4596 4610 120 120 [(B "identifier" 1598 4596 4598 120 120 [] # "left"); (B "assignment_operator" 1599 4599 4600 120 120 [(A "=" 1600 4599 4600 120 120 [])] # "operator"); (B "identifier" 1601 4601 4610 120 120 [] # "right")]); (A "," 1602 4610 4611 120 120 []); (B "assignment_expression" 1603 4612 4629 120 120 [(B "identifier" 1604 4612 4616 120 120 [] # "left"); (B "assignment_operator" 1605 4617 4618 120 120 [(A "=" 1606 4617 4618 120 120 [])] # "operator"); (B "string_literal" 1607 4619 4629 120 120 [] # "right")]); (A ")" 1608 4629 4630 120 120 [])] # "arguments")] # "target"); (B "array_creation_expression" 1609 4631 4696 120 120 [(A "new" 1610 4631 4634 120 120 []); (B "generic_type" 1611 4635 4648 120 120 [(B "type_identifier" 1612 4635 4639 120 120 []); (B "type_arguments" 1613 4639 4648 120 120 [(A "<" 1614 4639 4640 120 120 []); (B "type_identifier" 1615 4640 4647 120 120 []); (A ">" 1616 4647 4648 120 120 [])])] # "type"); (B "array_initializer" 1617 4648 4696 120 120 [(A "{" 1618 4648 4649 120 120 []); (B "object_creation_expression" 1619 4649 4695 120 120 [(A "new" 1620 4649 4652 120 120 []); (B "type_identifier" 1621 4653 4660 120 120 [] # "type"); (B "argument_list" 1622 4660 4695 120 120 [(A "(" 1623 4660 4661 120 120 []); (B "assignment_expression" 1624 4661 4675 120 120 [(B "identifier" 1625 4661 4663 120 120 [] # "left"); (B "assignment_operator" 1626 4664 4665 120 120 [(A "=" 1627 4664 4665 120 120 [])] # "operator"); (B "identifier" 1628 4666 4675 120 120 [] # "right")]); (A "," 1629 4675 4676 120 120 []); (B "assignment_expression" 1630 4677 4694 120 120 [(B "identifier" 1631 4677 4681 120 120 [] # "left"); (B "assignment_operator" 1632 4682 4683 120 120 [(A "=" 1633 4682 4683 120 120 [])] # "operator"); (B "string_literal" 1634 4684 4694 120 120 [] # "right")]); (A ")" 1635 4694 4695 120 120 [])] # "arguments")]); (A "}" 1636 4695 4696 120 120 [])] # "value")] # "merge_with")]); (A ";" 1637 4696 4697 120 120 [])]); (B "expression_statement" 1638 4702 4776 121 121 [(B "dml_expression" 1639 4702 4775 121 121 [(B "dml_type" 1640 4702 4707 121 121 [(B "merge" 1641 4702 4707 121 121 [(A "merge" 1642 4702 4707 121 121 [])])]); (B "object_creation_expression" 1643 4708 4754 121 121 [(A "new" 1644 4708 4711 121 121 []); (B "type_identifier" 1645 4712 4719 121 121 [] # "type"); (B "argument_list" 1646 4719 4754 121 121 [(A "(" 1647 4719 4720 121 121 []); (B "assignment_expression" 1648 4720 4734 121 121 [(B "identifier" 1649 4720 4722 121 121 [] # "left"); (B "assignment_operator" 1650 4723 4724 121 121 [(A "=" 1651 4723 4724 121 121 [])] # "operator"); (B "identifier" 1652 4725 4734 121 121 [] # "right")]); (A "," 1653 4734 4735 121 121 []); (B "assignment_expression" 1654 4736 4753 121 121 [(B "identifier" 1655 4736 4740 121 121 [] # "left"); (B "assignment_operator" 1656 4741 4742 121 121 [(A "=" 1657 4741 4742 121 121 [])] # "operator"); (B "string_literal" 1658 4743 4753 121 121 [] # "right")]); (A ")" 1659 4753 4754 121 121 [])] # "arguments")] # "target"); (B "string_literal" 1660 4755 4775 121 121 [] # "merge_with")]); (A ";" 1661 4775 4776 121 121 [])]); (B "expression_statement" 1662 4781 4869 122 122 [(B "dml_expression" 1663 4781 4868 122 122 [(B "dml_type" 1664 4781 4786 122 122 [(B "merge" 1665 4781 4786 122 122 [(A "merge" 1666 4781 4786 122 122 [])])]); (B "object_creation_expression" 1667 4787 4833 122 122 [(A "new" 1668 4787 4790 122 122 []); (B "type_identifier" 1669 4791 4798 122 122 [] # "type"); (B "argument_list" 1670 4798 4833 122 122 [(A "(" 1671 4798 4799 122 122 []); (B "assignment_expression" 1672 4799 4813 122 122 [(B "identifier" 1673 4799 4801 122 122 [] # "left"); (B "assignment_operator" 1674 4802 4803 122 122 [(A "=" 1675 4802 4803 122 122 [])] # "operator"); (B "identifier" 1676 4804 4813 122 122 [] # "right")]); (A "," 1677 4813 4814 122 122 []); (B "assignment_expression" 1678 4815 4832 122 122 [(B "identifier" 1679 4815 4819 122 122 [] # "left"); (B "assignment_operator" 1680 4820 4821 122 122 [(A "=" 1681 4820 4821 122 122 [])] # "operator"); (B "string_literal" 1682 4822 4832 122 122 [] # "right")]); (A ")" 1683 4832 4833 122 122 [])] # "arguments")] # "target"); (B "array_creation_expression" 1684 4834 4868 122 122 [(A "new" 1685 4834 4837 122 122 []); (B "generic_type" 1686 4838 4846 122 122 [(B "type_identifier" 1687 4838 4842 122 122 []); (B "type_arguments" 1688 4842 4846 122 122 [(A "<" 1689 4842 4843 122 122 []); (B "type_identifier" 1690 4843 4845 122 122 []); (A ">" 1691 4845 4846 122 122 [])])] # "type"); (B "array_initializer" 1692 4846 4868 122 122 [(A "{" 1693 4846 4847 122 122 []); (B "string_literal" 1694 4847 4867 122 122 []); (A "}" 1695 4867 4868 122 122 [])] # "value")] # "merge_with")]); (A ";" 1696 4868 4869 122 122 [])]); (A "}" 1697 4872 4873 123 123 [])] # "body")]); (A "}" 1698 4874 4875 124 124 [])] # "body")])]).
Example static_DmlClass : as_expected static_DmlClass_source static_DmlClass_tree (U "class DMLClass {
  void insertTest() {
    Account account = new Account(Name = 'Acme');
    Account[] account =
      new List<Account>{
        new Account(Name = 'Inner Acme One'),
        new Account(Name = 'Inner Acme Two')
      };
    insert account;
    insert accounts;
    insert new Account(Name = 'Acme One');
    insert new List<Account>{
      new Account(Name = 'Inner Acme Three'),
      new Account(Name = 'Inner Acme Four')
    };
    insert as user account;
    insert as system account;
  }
  void updateTest() {
    Id accountId = [SELECT Id FROM Account LIMIT 1].Id;
    Account account = new Account(Id = accountId, Name = 'Acme');
    Account[] account =
      new List<Account>{
        new Account(Id = accountId, Name = 'Inner Acme One'),
        new Account(Id = accountId, Name = 'Inner Acme Two')
      };
    update account;
    update accounts;
    update new Account(Id = accountId, Name = 'Acme One');
    update new List<Account>{
      new Account(Id = accountId, Name = 'Inner Acme Three'),
      new Account(Id = accountId, Name = 'Inner Acme Four')
    };
    update as user account;
    update as system account;
  }
  void upsertWithoutOptFieldTest() {
    Id accountId = [SELECT Id FROM Account LIMIT 1].Id;
    Account account = new Account(Id = accountId, Name = 'Acme');
    Account[] account =
      new List<Account>{
        new Account(Name = 'Inner Acme One'),
        new Account(Id = accountId, Name = 'Inner Acme Two')
      };
    upsert account;
    upsert accounts;
    upsert new Account(Id = accountId, Name = 'Acme One');
    upsert new List<Account>{
        new Account(Name = 'Inner Acme Three'),
        new Account(Id = accountId, Name = 'Inner Acme Four')
      };
    upsert as user account;
    upsert as system account;
  }
  void upsertWithOptFieldTest() {
    Id accountId = [SELECT Id FROM Account LIMIT 1].Id;
    Account account =
      new Account(
        Id = accountId,
        Name = 'Acme',
        Description = 'Test Description'
      );
    Account[] account =
      new List<Account>{
        new Account(Name = 'Inner Acme One'),
        new Account(Id = accountId, Name = 'Inner Acme Two')
      };
    upsert account Account.Fields.External_Id__c;
    upsert accounts Account.Field.External_Id__c;
    upsert new Account(Id = accountId, Name = 'Acme One')
      Account.Fields.External_Id__c;
    upsert new List<Account>{
        new Account(Name = 'Inner Acme Three'),
        new Account(Id = accountId, Name = 'Inner Acme Four')
      }
      Account.Fields.External_Id__c;
  }
  void deleteTest() {
    Id accountId = [SELECT Id FROM Account LIMIT 1].Id;
    Account account = new Account(Id = accountId, Name = 'Acme');
    Account[] account =
      new List<Account>{
        new Account(Id = accountId, Name = 'Inner Acme One'),
        new Account(Id = accountId, Name = 'Inner Acme Two')
      };
    delete account;
    delete accounts;
    delete new Account(Id = accountId, Name = 'Acme One');
    delete new List<Account>{
      new Account(Id = accountId, Name = 'Inner Acme Three'),
      new Account(Id = accountId, Name = 'Inner Acme Four')
    };
    delete as user account;
    delete as system account;
  }
  void undeleteTest() {
    Id accountId = [SELECT Id FROM Account LIMIT 1 ALL ROWS].Id;
    Id[] accountIds = new List<Id>{ accountId };
    Account account = new Account(Id = accountId, Name = 'Acme');
    Account[] account =
      new List<Account>{
        new Account(Id = accountId, Name = 'Inner Acme One'),
        new Account(Id = accountId, Name = 'Inner Acme Two')
      };
    undelete account;
    undelete accountId;
    undelete accounts;
    undelete accountIds;
    undelete new Account(Id = accountId, Name = 'Acme One');
    undelete new List<Account>{
      new Account(Id = accountId, Name = 'Inner Acme Three'),
      new Account(Id = accountId, Name = 'Inner Acme Four')
    };
    undelete as user account;
    undelete as system account;
  }
  void mergeTest() {
    Id accountId = [SELECT Id FROM Account LIMIT 1].Id;
    Id[] accountIds = new List<Id>{ accountId };
    Account account = new Account(Id = accountId, Name = 'Acme');
    Account anotherAccount = new Account(Id = accountId, Name = 'Another Acme');
    Account[] account =
      new List<Account>{
        new Account(Id = accountId, Name = 'Inner Acme One'),
        new Account(Id = accountId, Name = 'Inner Acme Two')
      };
    merge account anotherAccount;
    merge account accounts;
    merge account accountId;
    merge account accountIds;
    merge as user account accountId;
    merge as system account accountIds;

    merge new Account(Id = accountId, Name = 'Acme One')
      new Account(Id = accountId, Name = 'Acme Two');
    merge new Account(Id = accountId, Name = 'Acme One')
      new List<Account>{ new Account(Id = accountId, Name = 'Acme Two') };
    merge new Account(Id = accountId, Name = 'Acme One') '0010B00001kL7i0QAC';
    merge new Account(Id = accountId, Name = 'Acme One')
      new List<Id>{ '0010B00001kL7i0QAC' };
  }
}
").
Proof. apply run_test_ok. vm_compute. reflexivity. Qed.

(* tests/static/ExtendImplementClass.in *)
Definition static_ExtendImplementClass_source : ustr := U "class ExtendImplementClass extends FirstExtend implements FirstImplement, SecondImplement {
  public virtual class VirtualExtendInnerClass extends FirstExtend {


  }

  private abstract class AbstractImplementInnerClass implements FirstImplement {

  }

  global class ExtendImplementInnerClass extends FirstExtend implements FirstImplement, SecondImplement {

  }

  public override Integer compareTo(Object anotherObject) {

  }
}
".
Definition static_ExtendImplementClass_tree : span := (B "parser_output" 1 0 434 0 18 [(B "class_declaration" 2 0 433 0 17 [(A "class" 3 0 5 0 0 []); (B "identifier" 4 6 26 0 0 [] # "name"); (B "superclass" 5 27 46 0 0 [(A "extends" 6 27 34 0 0 []); (B "type_identifier" 7 35 46 0 0 [])]); (B "interfaces" 8 47 89 0 0 [(A "implements" 9 47 57 0 0 []); (B "type_list" 10 58 89 0 0 [(B "type_identifier" 11 58 72 0 0 []); (A "," 12 72 73 0 0 []); (B "type_identifier" 13 74 89 0 0 [])])]); (B "class_body" 14 90 433 0 17 [(A "{" 15 90 91 0 0 []); (B "class_declaration" 16 94 166 1 4 [(B "modifiers" 17 94 108 1 1 [(B "modifier" 18 94 100 1 1 [(B "public" 19 94 100 1 1 [(A "public" 20 94 100 1 1 [])])]); (B "modifier" 21 101 108 1 1 [(B "virtual" 22 101 108 1 1 [(A "virtual" 23 101 108 1 1 [])])])]); (A "class" 24 109 114 1 1 []); (B "identifier" 25 115 138 1 1 [] # "name"); (B "superclass" 26 139 158 1 1 [(A "extends" 27 139 146 1 1 []); (B "type_identifier" 28 147 158 1 1 [])]); (B "class_body" 29 159 166 1 4 [(A "{" 30 159 160 1 1 []); (A "}" 31 165 166 4 4 [])] # "body")]); (B "class_declaration" 32 170 253 6 8 [(B "modifiers" 33 170 186 6 6 [(B "modifier" 34 170 177 6 6 [(B "private" 35 170 177 6 6 [(A "private" 36 170 177 6 6 [])])]); (B "modifier" 37 178 186 6 6 [(B "abstract" 38 178 186 6 6 [(A "abstract" 39 178 186 6 6 [])])])]); (A "class" 40 187 192 6 6 []); (B "identifier" 41 193 220 6 6 [] # "name"); (B "interfaces" 42 221 246 6 6 [(A "implements" 43 221 231 6 6 []); (B "type_list" 44 232 246 6 6 [(B "type_identifier" 45 232 246 6 6 [])])]); (B "class_body" 46 247 253 6 8 [(A "{" 47 247 248 6 6 []); (A "}" 48 252 253 8 8 [])] # "body")]); (B "class_declaration" 49 257 365 10 12 [(B "modifiers" 50 257 263 10 10 [(B "modifier" 51 257 263 10 10 [(B "global" 52 257 263 10 10 [(A "global" 53 257 263 10 10 [])])])]); (A "class" 54 264 269 10 10 []); (B "identifier" 55 270 295 10 10 [] # "name"); (B "superclass" 56 296 315 10 10 [(A "extends" 57 296 303 10 10 []); (B "type_identifier" 58 304 315 10 10 [])]); (B "interfaces" 59 316 358 10 10 [(A "implements" 60 316 326 10 10 []); (B "type_list" 61 327 358 10 10 [(B "type_identifier" 62 327 341 10 10 []); (A "," 63 341 342 10 10 []); (B "type_identifier" 64 343 358 10 10 [])])]); (B "class_body" 65 359 365 10 12 [(A "{" 66 359 360 10 10 []); (A "}" 67 364 365 12 12 [])] # "body")]); (B "method_declaration" 68 369 431 14 16 [(B "modifiers" 69 369 384 14 14 [(B "modifier" 70 369 375 14 14 [(B "public" 71 369 375 14 14 [(A "public" 72 369 375 14 14 [])])]); (B "modifier" 73 376 384 14 14 [(B "override" 74 376 384 14 14 [(A "override" 75 376 384 14 14 [])])])]); (B "type_identifier" 76 385 392 14 14 [] # "type"); (B "identifier" 77 393 402 14 14 [] # "name"); (B "formal_parameters" 78 402 424 14 14 [(A "(" 79 402 403 14 14 []); (B "formal_parameter" 80 403 423 14 14 [(B "type_identifier" 81 403 409 14 14 [] # "type"); (B "identifier" 82 410 423 14 14 [] # "name")]); (A ")" 83 423 424 14 14 [])] # "parameters"); (B "block" 84 425 431 14 16 [(A "{" 85 425 426 14 14 []); (A "}" 86 430 431 16 16 [])] # "body")]); (A "}" 87 432 433 17 17 [])] # "body")])]).
Example static_ExtendImplementClass : as_expected static_ExtendImplementClass_source static_ExtendImplementClass_tree (U "class ExtendImplementClass
  extends FirstExtend implements FirstImplement, SecondImplement {
  public virtual class VirtualExtendInnerClass extends FirstExtend {
  }

  private abstract class AbstractImplementInnerClass implements FirstImplement {
  }

  global class ExtendImplementInnerClass
    extends FirstExtend implements FirstImplement, SecondImplement {
  }

  public override Integer compareTo(Object anotherObject) {
  }
}
").
Proof. apply run_test_ok. vm_compute. reflexivity. Qed.

(* tests/static/NewObject.in *)
Definition static_NewObject_source : ustr := U "class NewObject {
  void newListTest() {
    List<String> a = new List<String>();
    List<String> aCopy = new List<String>(veryLongVariable.getOneSet().getAnotherSet().getYetAnotherSet());
    List<String> aCopy = new List<String>(superDuperVeryInsanelyLongVariableNameThatWillSurelyBreak.getOneSet().getAnotherSet().getYetAnotherSet());
    List<String> aCopy = new List<String>(superDuperVeryInsanelyLongVariableNameThatWillSurelyBreak && anotherSuperDuperVeryInsanelyLongVariableNameThatWillSurelyBreak);
    List<String> aCopy = new List<String>(a);
    List<String> b = new String[]{};
    String[] c = new String[]{};
    String[] d = new String[]{'a', 'b'};
    String[] e = new String[]{'Long string number one', 'Long string number two'};
    String[] f = new String[1];
    String[] g = new List<String>(f);
    String[] h = new String[0];
  }

  void newSetTest() {
    Set<String> a = new Set<String>();
    Set<String> aCopy = new Set<String>(aCopy);
    Set<String> superDuperVeryInsanelyLongVariableNameThatWillSurelyBreak = new Set<String>();
    Set<String> aCopy = new Set<String>(veryLongVariable.getOneSet().getAnotherSet().getYetAnotherSet());
    Set<String> aCopy = new Set<String>(superDuperVeryInsanelyLongVariableNameThatWillSurelyBreak.getOneSet().getAnotherSet().getYetAnotherSet());
    Set<String> aCopy = new Set<String>(superDuperVeryInsanelyLongVariableNameThatWillSurelyBreak && anotherSuperDuperVeryInsanelyLongVariableNameThatWillSurelyBreak);
    Set<String> b = new Set<String>{};
    Set<String> c = new Set<String>{'a', 'b'};
    Set<String> c = new Set<String>{'Long string number one', 'Long string number two'};
  }

  void newMapTest() {
    Map<String, String> a = new Map<String, String>();
    Map<String, String> aCopy = new Map<String, String>(a);
    Map<String, String> superDuperVeryInsanelyLongVariableNameThatWillSurelyBreak = new Map<String, String>();
    Map<String, String> aCopy = new Map<String, String>(veryLongVariable.getOneSet().getAnotherSet().getYetAnotherSet());
    Map<String, String> aCopy = new Map<String, String>(superDuperVeryInsanelyLongVariableNameThatWillSurelyBreak.getOneSet().getAnotherSet().getYetAnotherSet());
    Map<String, String> aCopy = new Map<String, String>(superDuperVeryInsanelyLongVariableNameThatWillSurelyBreak && anotherSuperDuperVeryInsanelyLongVariableNameThatWillSurelyBreak);
    Map<String, String> b = new Map<String, String>{};
    Map<String, String> c = new Map<String, String>{'a' => 'b', 'c' => 'd'};
    Map<String, String> c = new Map<String, String>{'Long string key' => 'Long string value', 'Long string key two' => 'Long string value two'};
    Map<String, String[]> d = new Map<String, String[]>{
      'a' => new String[]{'a','b'},
      'b' => new String[]{'c','d'}
    };
    Map<String, Decimal> fmaIntegerParameterNameDefaultValue = new Map<string, decimal>
    {'Parameter1'=> 1,
    'Parameter2' => 0 ,
    'Parameter3'=> 500 };
  }

  void newKeyValueTest() {
    Account a = new Account(Name='Account Name');
    Account b = new Account(Name='Account Name', Description='Account Description That Is Very Long');
    Account b = new Account(Name='Account Name', Description='Account Description That Is Very Long' + 'Some Other Description That Is Also Very Long');
    Account account = new Account(
      Body__c = JSON.serialize(new Map<String, Object>{'Content' => 'Hello', 'World' => 'There'})
    );
    Account account = new Account(
      Body__c = JSON.serialize(new Map<String, Object>{'Content' => 'Hello', 'World' => 'There', 'Hi' => 'Yes'})
    );
  }

  void newStandardTest() {
    JWS a = new JWS('payload', 'certDevName');
    JWS b = new JWS('Very long payload but still fit in one line', 'very long cert dev name');
    JWS c = new JWS('Very long payload that is definitely too long so that all the parent groups must break', 'very long cert dev name');
  }

  void newComplicatedTypesTest() {
    Map<String, Map<String, String>> a = new Map<String, Map<String, String>> {
      'a' => new Map<String, String> {
        'b' => 'c'
      },
      'd' => new Map<String, String> {
        'e' => 'f'
      }
    };
    Map<String, List<String>> b = new Map<String, List<String>> {
      'b' => new List<String> {'c','d','e'}
    };
    Map<List<String>, List<String>> c = new Map<List<String>, List<String>> {
      new List<String>{'a'} => new List<String>{'b','c'},
      new List<String>{'d'} => new List<String>{'e','f'}
    };
    List<List<String>> d = new List<List<String>>(5);
  }
}

".
Definition static_NewObject_tree : span := (B "parser_output" 1 0 4534 0 86 [(B "class_declaration" 2 0 4532 0 84 [(A "class" 3 0 5 0 0 []); (B "identifier" 4 6 15 0 0 [] # "name"); (B "class_body" 5 16 4532 0 84 [(A "{" 6 16 17 0 0 []); (B "method_declaration" 7 20 854 1 14 [(B "void_type" 8 20 24 1 1 [] # "type"); (B "identifier" 9 25 36 1 1 [] # "name"); (B "formal_parameters" 10 36 38 1 1 [(A "(" 11 36 37 1 1 []); (A ")" 12 37 38 1 1 [])] # "parameters"); (B "block" 13 39 854 1 14 [(A "{" 14 39 40 1 1 []); (B "local_variable_declaration" 15 45 81 2 2 [(B "generic_type" 16 45 57 2 2 [(B "type_identifier" 17 45 49 2 2 []); (B "type_arguments" 18 49 57 2 2 [(A "<" 19 49 50 2 2 []); (B "type_identifier" 20 50 56 2 2 []); (A ">" 21 56 57 2 2 [])])] # "type"); (B "variable_declarator" 22 58 80 2 2 [(B "identifier" 23 58 59 2 2 [] # "name"); (B "assignment_operator" 24 60 61 2 2 [(A "=" 25 60 61 2 2 [])]); (B "object_creation_expression" 26 62 80 2 2 [(A "new" 27 62 65 2 2 []); (B "generic_type" 28 66 78 2 2 [(B "type_identifier" 29 66 70 2 2 []); (B "type_arguments" 30 70 78 2 2 [(A "<" 31 70 71 2 2 []); (B "type_identifier" 32 71 77 2 2 []); (A ">" 33 77 78 2 2 [])])] # "type"); (B "argument_list" 34 78 80 2 2 [(A "(" 35 78 79 2 2 []); (A ")" 36 79 80 2 2 [])] # "arguments")] # "value")] # "declarator"); (A ";" 37 80 81 2 2 [])]); (B "local_variable_declaration" 38 86 189 3 3 [(B "generic_type" 39 86 98 3 3 [(B "type_identifier" 40 86 90 3 3 []); (B "type_arguments" 41 90 98 3 3 [(A "<" 42 90 91 3 3 []); (B "type_identifier" 43 91 97 3 3 []); (A ">" 44 97 98 3 3 [])])] # "type"); (B "variable_declarator" 45 99 188 3 3 [(B "identifier" 46 99 104 3 3 [] # "name"); (B "assignment_operator" 47 105 106 3 3 [(A "=" 48 105 106 3 3 [])]); (B "object_creation_expression" 49 107 188 3 3 [(A "new" 50 107 110 3 3 []); (B "generic_type" 51 111 123 3 3 [(B "type_identifier" 52 111 115 3 3 []); (B "type_arguments" 53 115 123 3 3 [(A "<" 54 115 116 3 3 []); (B "type_identifier" 55 116 122 3 3 []); (A ">" 56 122 123 3 3 [])])] # "type"); (B "argument_list" 57 123 188 3 3 [(A "(" 58 123 124 3 3 []); (B "method_invocation" 59 124 187 3 3 [(B "method_invocation" 60 124 168 3 3 [(B "method_invocation" 61 124 152 3 3 [(B "identifier" 62 124 140 3 3 [] # "object"); (A "." 63 140 141 3 3 []); (B "identifier" 64 141 150 3 3 [] # "name"); (B "argument_list" 65 150 152 3 3 [(A "(" 66 150 151 3 3 []); (A ")" 67 151 152 3 3 [])] # "arguments")] # "object"); (A "." 68 152 153 3 3 []); (B "identifier" 69 153 166 3 3 [] # "name"); (B "argument_list" 70 166 168 3 3 [(A "(" 71 166 167 3 3 []); (A ")" 72 167 168 3 3 [])] # "arguments")] # "object"); (A "." 73 168 169 3 3 []); (B "identifier" 74 169 185 3 3 [] # "name"); (B "argument_list" 75 185 187 3 3 [(A "(" 76 185 186 3 3 []); (A ")" 77 186 187 3 3 [])] # "arguments")]); (A ")" 78 187 188 3 3 [])] # "arguments")] # "value")] # "declarator"); (A ";" 79 188 189 3 3 [])]); (B "local_variable_declaration" 80 194 338 4 4 [(B "generic_type" 81 194 206 4 4 [(B "type_identifier" 82 194 198 4 4 []); (B "type_arguments" 83 198 206 4 4 [(A "<" 84 198 199 4 4 []); (B "type_identifier" 85 199 205 4 4 []); (A ">" 86 205 206 4 4 [])])] # "type"); (B "variable_declarator" 87 207 337 4 4 [(B "identifier" 88 207 212 4 4 [] # "name"); (B "assignment_operator" 89 213 214 4 4 [(A "=" 90 213 214 4 4 [])]); (B "object_creation_expression" 91 215 337 4 4 [(A "new" 92 215 218 4 4 []); (B "generic_type" 93 219 231 4 4 [(B "type_identifier" 94 219 223 4 4 []); (B "type_arguments" 95 223 231 4 4 [(A "<" 96 223 224 4 4 []); (B "type_identifier" 97 224 230 4 4 []); (A ">" 98 230 231 4 4 [])])] # "type"); (B "argument_list" 99 231 337 4 4 [(A "(" 100 231 232 4 4 []); (B "method_invocation" 101 232 336 4 4 [(B "method_invocation" 102 232 317 4 4 [(B "method_invocation" 103 232 301 4 4 [(B "identifier" 104 232 289 4 4 [] # "object"); (A "." 105 289 290 4 4 []); (B "identifier" 106 290 299 4 4 [] # "name"); (B "argument_list" 107 299 301 4 4 [(A "(" 108 299 300 4 4 []); (A ")" 109 300 301 4 4 [])] # "arguments")] # "object"); (A "." 110 301 302 4 4 []); (B "identifier" 111 302 315 4 4 [] # "name"); (B "argument_list" 112 315 317 4 4 [(A "(" 113 315 316 4 4 []); (A ")" 114 316 317 4 4 [])] # "arguments")] # "object"); (A "." 115 317 318 4 4 []); (B "identifier" 116 318 334 4 4 [] # "name"); (B "argument_list" 117 334 336 4 4 [(A "(" 118 334 335 4 4 []); (A ")" 119 335 336 4 4 [])] # "arguments")]); (A ")" 120 336 337 4 4 [])] # "arguments")] # "value")] # "declarator"); (A ";" 121 337 338 4 4 [])]); (B "local_variable_declaration" 122 343 508 5 5 [(B "generic_type" 123 343 355 5 5 [(B "type_identifier" 124 343 347 5 5 []); (B "type_arguments" 125 347 355 5 5 [(A "<" 126 347 348 5 5 []); (B "type_identifier" 127 348 354 5 5 []); (A ">" 128 354 355 5 5 [])])] # "type"); (B "variable_declarator" 129 356 507 5 5 [(B "identifier" 130 356 361 5 5 [] # "name"); (B "assignment_operator" 131 362 363 5 5 [(A "=" 132 362 363 5 5 [])]); (B "object_creation_expression" 133 364 507 5 5 [(A "new" 134 364 367 5 5 []); (B "generic_type" 135 368 380 5 5 [(B "type_identifier" 136 368 372 5 5 []); (B "type_arguments" 137 372 380 5 5 [(A "<" 138 372 373 5 5 []); (B "type_identifier" 139 373 379 5 5 []); (A ">" 140 379 380 5 5 [])])] # "type"); (B "argument_list" 141 380 507 5 5 [(A "(" 142 380 381 5 5 []); (B "binary_expression" 143 381 506 5 5 [(B "identifier" 144 381 438 5 5 [] # "left"); (A "&&" 145 439 441 5 5 [] # "operator"); (B "identifier" 146 442 506 5 5 [] # "right")]); (A ")" 147 506 507 5 5 [])] # "arguments")] # "value")] # "declarator"); (A ";" 148 507 508 5 5 [])]); (B "local_variable_declaration" 149 513 554 6 6 [(B "generic_type" 150 513 525 6 6 [(B "type_identifier" 151 513 517 6 6 []); (B "type_arguments" 152 517 525 6 6 [(A "<" 153 517 518 6 6 []); (B "type_identifier" 154 518 524 6 6 []); (A ">" 155 524 525 6 6 [])])] # "type"); (B "variable_declarator" 156 526 553 6 6 [(B "identifier" 157 526 531 6 6 [] # "name"); (B "assignment_operator" 158 532 533 6 6 [(A "=" 159 532 533 6 6 [])]); (B "object_creation_expression" 160 534 553 6 6 [(A "new" 161 534 537 6 6 []); (B "generic_type" 162 538 550 6 6 [(B "type_identifier" 163 538 542 6 6 []); (B "type_arguments" 164 542 550 6 6 [(A "<" 165 542 543 6 6 []); (B "type_identifier" 166 543 549 6 6 []); (A ">" 167 549 550 6 6 [])])] # "type"); (B "argument_list" 168 550 553 6 6 [(A "(" 169 550 551 6 6 []); (B "identifier" 170 551 552 6 6 []); (A ")" 171 552 553 6 6 [])] # "arguments")] # "value")] # "declarator"); (A ";" 172 553 554 6 6 [])]); (B "local_variable_declaration" 173 559 591 7 7 [(B "generic_type" 174 559 571 7 7 [(B "type_identifier" 175 559 563 7 7 []); (B "type_arguments" 176 563 571 7 7 [(A "<" 177 563 564 7 7 []); (B "type_identifier" 178 564 570 7 7 []); (A ">" 179 570 571 7 7 [])])] # "type"); (B "variable_declarator" 180 572 590 7 7 [(B "identifier" 181 572 573 7 7 [] # "name"); (B "assignment_operator" 182 574 575 7 7 [(A "=" 183 574 575 7 7 [])]); (B "array_creation_expression" 184 576 590 7 7 [(A "new" 185 576 579 7 7 []); (B "type_identifier" 186 580 586 7 7 [] # "type"); (B "dimensions" 187 586 588 7 7 [(A "[" 188 586 587 7 7 []); (A "]" 189 587 588 7 7 [])] # "dimensions"); (B "array_initializer" 190 588 590 7 7 [(A "{" 191 588 589 7 7 []); (A "}" 192 589 590 7 7 [])] # "value")] # "value")] # "declarator"); (A ";" 193 590 591 7 7 [])]); (B "local_variable_declaration" 194 596 624 8 8 [(B "array_type" 195 596 604 8 8 [(B "type_identifier" 196 596 602 8 8 [] # "element"); (B "dimensions" 197 602 604 8 8 [(A "[" 198 602 603 8 8 []); (A "]" 199 603 604 8 8 [])] # "dimensions")] # "type"); (B "variable_declarator" 200 605 623 8 8 [(B "identifier" 201 605 606 8 8 [] # "name"); (B "assignment_operator" 202 607 608 8 8 [(A "=" 203 607 608 8 8 [])]); (B "array_creation_expression" 204 609 623 8 8 [(A "new" 205 609 612 8 8 []); (B "type_identifier" 206 613 619 8 8 [] # "type"); (B "dimensions" 207 619 621 8 8 [(A "[" 208 619 620 8 8 []); (A "]" 209 620 621 8 8 [])] # "dimensions"); (B "array_initializer" 210 621 623 8 8 [(A "{" 211 621 622 8 8 []); (A "}" 212 622 623 8 8 [])] # "value")] # "value")] # "declarator"); (A ";" 213 623 624 8 8 [])]); (B "local_variable_declaration" 214 629 665 9 9 [(B "array_type" 215 629 637 9 9 [(B "type_identifier" 216 629 635 9 9 [] # "element"); (B "dimensions" 217 635 637 9 9 [(A "[" 218 635 636 9 9 []); (A "]" 219 636 637 9 9 [])] # "dimensions")] # "type"); (B "variable_declarator" 220 638 664 9 9 [(B "identifier" 221 638 639 9 9 [] # "name"); (B "assignment_operator" 222 640 641 9 9 [(A "=" 223 640 641 9 9 [])]); (B "array_creation_expression" 224 642 664 9 9 [(A "new" 225 642 645 9 9 []); (B "type_identifier" 226 646 652 9 9 [] # "type"); (B "dimensions" 227 652 654 9 9 [(A "[" 228 652 653 9 9 []); (A "]" 229 653 654 9 9 [])] # "dimensions"); (B "array_initializer" 230 654 664 9 9 [(A "{" 231 654 655 9 9 []); (B "string_literal" 232 655 658 9 9 []); (A "," 233 658 659 9 9 []); (B "string_literal" 234 660 663 9 9 []); (A "}" 235 663 664 9 9 [])] # "value")] # "value")] # "declarator"); (A ";" 236 664 665 9 9 [])]); (B "local_variable_declaration" 237 670 748 10 10 [(B "array_type" 238 670 678 10 10 [(B "type_identifier" 239 670 676 10 10 [] # "element"); (B "dimensions" 240 676 678 10 10 [(A "[" 241 676 677 10 10 []); (A "]" 242 677 678 10 10 [])] # "dimensions")] # "type"); (B "variable_declarator" 243 679 747 10 10 [(B "identifier" 244 679 680 10 10 [] # "name"); (B "assignment_operator" 245 681 682 10 10 [(A "=" 246 681 682 10 10 [])]); (B "array_creation_expression" 247 683 747 10 10 [(A "new" 248 683 686 10 10 []); (B "type_identifier" 249 687 693 10 10 [] # "type"); (B "dimensions" 250 693 695 10 10 [(A "[" 251 693 694 10 10 []); (A "]" 252 694 695 10 10 [])] # "dimensions"); (B "array_initializer" 253 695 747 10 10 [(A "{" 254 695 696 10 10 []); (B "string_literal" 255 696 720 10 10 []); (A "," 256 720 721 10 10 []); (B "string_literal" 257 722 746 10 10 []); (A "}" 258 746 747 10 10 [])] # "value")] # "value")] # "declarator"); (A ";" 259 747 748 10 10 [])]); (B "local_variable_declaration" 260 753 780 11 11 [(B "array_type" 261 753 761 11 11 [(B "type_identifier" 262 753 759 11 11 [] # "element"); (B "dimensions" 263 759 761 11 11 [(A "[" 264 759 760 11 11 []); (A "]" 265 760 761 11 11 [])] # "dimensions")] # "type"); (B "variable_declarator" 266 762 779 11 11 [(B "identifier" 267 762 763 11 11 [] # "name"); (B "assignment_operator" 268 764 765 11 11 [(A "=" 269 764 765 11 11 [])]); (B "array_creation_expression" 270 766 779 11 11 [(A "new" 271 766 769 11 11 []); (B "type_identifier" 272 770 776 11 11 [] # "type"); (B "dimensions_expr" 273 776 779 11 11 [(A "[" 274 776 777 11 11 []); (B "int" 275 777 778 11 11 []); (A "]" 276 778 779 11 11 [])])] # "value")] # "declarator"); (A ";" 277 779 780 11 11 [])]); (B "local_variable_declaration" 278 785 818 12 12 [(B "array_type" 279 785 793 12 12 [(B "type_identifier" 280 785 791 12 12 [] # "element"); (B "dimensions" 281 791 793 12 12 [(A "[" 282 791 792 12 12 []); (A "]" 283 792 793 12 12 [])] # "dimensions")] # "type"); (B "variable_declarator" 284 794 817 12 12 [(B "identifier" 285 794 795 12 12 [] # "name"); (B "assignment_operator" 286 796 797 12 12 [(A "=" 287 796 797 12 12 [])]); (B "object_creation_expression" 288 798 817 12 12 [(A "new" 289 798 801 12 12 []); (B "generic_type" 290 802 814 12 12 [(B "type_identifier" 291 802 806 12 12 []); (B "type_arguments" 292 806 814 12 12 [(A "<" 293 806 807 12 12 []); (B "type_identifier" 294 807 813 12 12 []); (A ">" 295 813 814 12 12 [])])] # "type"); (B "argument_list" 296 814 817 12 12 [(A "(" 297 814 815 12 12 []); (B "identifier" 298 815 816 12 12 []); (A ")" 299 816 817 12 12 [])] # "arguments")] # "value")] # "declarator"); (A ";" 300 817 818 12 12 [])]); (B "local_variable_declaration" 301 823 850 13 13 [(B "array_type" 302 823 831 13 13 [(B "type_identifier" 303 823 829 13 13 [] # "element"); (B "dimensions" 304 829 831 13 13 [(A "[" 305 829 830 13 13 []); (A "]" 306 830 831 13 13 [])] # "dimensions")] # "type"); (B "variable_declarator" 307 832 849 13 13 [(B "identifier" 308 832 833 13 13 [] # "name"); (B "assignment_operator" 309 834 835 13 13 [(A "=" 310 834 835 13 13 [])]); (B "array_creation_expression" 311 836 849 13 13 [(A "new" 312 836 839 13 13 []); (B "type_identifier" 313 840 846 13 13 [] # "type"); (B "dimensions_expr" 314 846 849 13 13 [(A "[" 315 846 847 13 13 []); (B "int" 316 847 848 13 13 []); (A "]" 317 848 849 13 13 [])])] # "value")] # "declarator"); (A ";" 318 849 850 13 13 [])]); (A "}" 319 853 854 14 14 [])] # "body")]); (B "method_declaration" 320 858 1659 16 26 [(B "void_type" 321 858 862 16 16 [] # "type"); (B "identifier" 322 863 873 16 16 [] # "name"); (B "formal_parameters" 323 873 875 16 16 [(A "(" 324 873 874 16 16 []); (A ")" 325 874 875 16 16 [])] # "parameters"); (B "block" 326 876 1659 16 26 [(A "{" 327 876 877 16 16 []); (B "local_variable_declaration" 328 882 916 17 17 [(B "generic_type" 329 882 893 17 17 [(B "type_identifier" 330 882 885 17 17 []); (B "type_arguments" 331 885 893 17 17 [(A "<" 332 885 886 17 17 []); (B "type_identifier" 333 886 892 17 17 []); (A ">" 334 892 893 17 17 [])])] # "type"); (B "variable_declarator" 335 894 915 17 17 [(B "identifier" 336 894 895 17 17 [] # "name"); (B "assignment_operator" 337 896 897 17 17 [(A "=" 338 896 897 17 17 [])]); (B "object_creation_expression" 339 898 915 17 17 [(A "new" 340 898 901 17 17 []); (B "generic_type" 341 902 913 17 17 [(B "type_identifier" 342 902 905 17 17 []); (B "type_arguments" 343 905 913 17 17 [(A "<" 344 905 906 17 17 []); (B "type_identifier" 345 906 912 17 17 []); (A ">" 346 912 913 17 17 [])])] # "type"); (B "argument_list" 347 913 915 17 17 [(A "(" 348 913 914 17 17 []); (A ")" 349 914 915 17 17 [])] # "arguments")] # "value")] # "declarator"); (A ";" 350 915 916 17 17 [])]); (B "local_variable_declaration" 351 921 964 18 18 [(B "generic_type" 352 921 932 18 18 [(B "type_identifier" 353 921 924 18 18 []); (B "type_arguments" 354 924 932 18 18 [(A "<" 355 924 925 18 18 []); (B "type_identifier" 356 925 931 18 18 []); (A ">" 357 931 932 18 18 [])])] # "type"); (B "variable_declarator" 358 933 963 18 18 [(B "identifier" 359 933 938 18 18 [] # "name"); (B "assignment_operator" 360 939 940 18 18 [(A "=" 361 939 940 18 18 [])]); (B "object_creation_expression" 362 941 963 18 18 [(A "new" 363 941 944 18 18 []); (B "generic_type" 364 945 956 18 18 [(B "type_identifier" 365 945 948 18 18 []); (B "type_arguments" 366 948 956 18 18 [(A "<" 367 948 949 18 18 []); (B "type_identifier" 368 949 955 18 18 []); (A ">" 369 955 956 18 18 [])])] # "type"); (B "argument_list" 370 956 963 18 18 [(A "(" 371 956 957 18 18 []); (B "identifier" 372 957 962 18 18 []); (A ")" 373 962 963 18 18 [])] # "arguments")] # "value")] # "declarator"); (A ";" 374 963 964 18 18 [])]); (B "local_variable_declaration" 375 969 1059 19 19 [(B "generic_type" 376 969 980 19 19 [(B "type_identifier" 377 969 972 19 19 []); (B "type_arguments" 378 972 980 19 19 [(A "<" 379 972 973 19 19 []); (B "type_identifier" 380 973 979 19 19 []); (A ">" 381 979 980 19 19 [])])] # "type"); (B "variable_declarator" 382 981 1058 19 19 [(B "identifier" 383 981 1038 19 19 [] # "name"); (B "assignment_operator" 384 1039 1040 19 19 [(A "=" 385 1039 1040 19 19 [])]); (B "object_creation_expression" 386 1041 1058 19 19 [(A "new" 387 1041 1044 19 19 []); (B "generic_type" 388 1045 1056 19 19 [(B "type_identifier" 389 1045 1048 19 19 []); (B "type_arguments" 390 1048 1056 19 19 [(A "<" 391 1048 1049 19 19 []); (B "type_identifier" 392 1049 1055 19 19 []); (A ">" 393 1055 1056 19 19 [])])] # "type"); (B "argument_list" 394 1056 1058 19 19 [(A "(" 395 1056 1057 19 19 []); (A ")" 396 1057 1058 19 19 [])] # "arguments")] # "value")] # "declarator"); (A ";" 397 1058 1059 19 19 [])]); (B "local_variable_declaration" 398 1064 1165 20 20 [(B "generic_type" 399 1064 1075 20 20 [(B "type_identifier" 400 1064 1067 20 20 []); (B "type_arguments" 401 1067 1075 20 20 [(A "<" 402 1067 1068 20 20 []); (B "type_identifier" 403 1068 1074 20 20 []); (A ">" 404 1074 1075 20 20 [])])] # "type"); (B "variable_declarator" 405 1076 1164 20 20 [(B "identifier" 406 1076 1081 20 20 [] # "name"); (B "assignment_operator" 407 1082 1083 20 20 [(A "=" 408 1082 1083 20 20 [])]); (B "object_creation_expression" 409 1084 1164 20 20 [(A "new" 410 1084 1087 20 20 []); (B "generic_type" 411 1088 1099 20 20 [(B "type_identifier" 412 1088 1091 20 20 []); (B "type_arguments" 413 1091 1099 20 20 [(A "<" 414 1091 1092 20 20 []); (B "type_identifier" 415 1092 1098 20 20 []); (A ">" 416 1098 1099 20 20 [])])] # "type"); (B "argument_list" 417 1099 1164 20 20 [(A "(" 418 1099 1100 20 20 []); (B "method_invocation" 419 1100 1163 20 20 [(B "method_invocation" 420 1100 1144 20 20 [(B "method_invocation" 421 1100 1128 20 20 [(B "identifier" 422 1100 1116 20 20 [] # "object"); (A "." 423 1116 1117 20 20 []); (B "identifier" 424 1117 1126 20 20 [] # "name"); (B "argument_list" 425 1126 1128 20 20 [(A "(" 426 1126 1127 20 20 []); (A ")" 427 1127 1128 20 20 [])] # "arguments")] # "object"); (A "." 428 1128 1129 20 20 []); (B "identifier" 429 1129 1142 20 20 [] # "name"); (B "argument_list" 430 1142 1144 20 20 [(A "(" 431 1142 1143 20 20 []); (A ")" 432 1143 1144 20 20 [])] # "arguments")] # "object"); (A "." 433 1144 1145 20 20 []); (B "identifier" 434 1145 1161 20 20 [] # "name"); (B "argument_list" 435 1161 1163 20 20 [(A "(" 436 1161 1162 20 20 []); (A ")" 437 1162 1163 20 20 [])] # "arguments")]); (A ")" 438 1163 1164 20 20 [])] # "arguments")] # "value")] # "declarator"); (A ";" 439 1164 1165 20 20 [])]); (B "local_variable_declaration" 440 1170 1312 21 21 [(B "generic_type" 441 1170 1181 21 21 [(B "type_identifier" 442 1170 1173 21 21 []); (B "type_arguments" 443 1173 1181 21 21 [(A "<" 444 1173 1174 21 21 []); (B "type_identifier" 445 1174 1180 21 21 []); (A ">" 446 1180 1181 21 21 [])])] # "type"); (B "variable_declarator" 447 1182 1311 21 21 [(B "identifier" 448 1182 1187 21 21 [] # "name"); (B "assignment_operator" 449 1188 1189 21 21 [(A "=" 450 1188 1189 21 21 [])]); (B "object_creation_expression" 451 1190 1311 21 21 [(A "new" 452 1190 1193 21 21 []); (B "generic_type" 453 1194 1205 21 21 [(B "type_identifier" 454 1194 1197 21 21 []); (B "type_arguments" 455 1197 1205 21 21 [(A "<" 456 1197 1198 21 21 []); (B "type_identifier" 457 1198 1204 21 21 []); (A ">" 458 1204 1205 21 21 [])])] # "type"); (B "argument_list" 459 1205 1311 21 21 [(A "(" 460 1205 1206 21 21 []); (B "method_invocation" 461 1206 1310 21 21 [(B "method_invocation" 462 1206 1291 21 21 [(B "method_invocation" 463 1206 1275 21 21 [(B "identifier" 464 1206 1263 21 21 [] # "object"); (A "." 465 1263 1264 21 21 []); (B "identifier" 466 1264 1273 21 21 [] # "name"); (B "argument_list" 467 1273 1275 21 21 [(A "(" 468 1273 1274 21 21 []); (A ")" 469 1274 1275 21 21 [])] # "arguments")] # "object"); (A "." 470 1275 1276 21 21 []); (B "identifier" 471 1276 1289 21 21 [] # "name"); (B "argument_list" 472 1289 1291 21 21 [(A "(" 473 1289 1290 21 21 []); (A ")" 474 1290 1291 21 21 [])] # "arguments")] # "object"); (A "." 475 1291 1292 21 21 []); (B "identifier" 476 1292 1308 21 21 [] # "name"); (B "argument_list" 477 1308 1310 21 21 [(A "(" 478 1308 1309 21 21 []); (A ")" 479 1309 1310 21 21 [])] # "arguments")]); (A ")" 480 1310 1311 21 21 [])] # "arguments")] # "value")] # "declarator"); (A ";" 481 1311 1312 21 21 [])]); (B "local_variable_declaration" 482 1317 1480 22 22 [(B "generic_type" 483 1317 1328 22 22 [(B "type_identifier" 484 1317 1320 22 22 []); (B "type_arguments" 485 1320 1328 22 22 [(A "<" 486 1320 1321 22 22 []); (B "type_identifier" 487 1321 1327 22 22 []); (A ">" 488 1327 1328 22 22 [])])] # "type"); (B "variable_declarator" 489 1329 1479 22 22 [(B "identifier" 490 1329 1334 22 22 [] # "name"); (B "assignment_operator" 491 1335 1336 22 22 [(A "=" 492 1335 1336 22 22 [])]); (B "object_creation_expression" 493 1337 1479 22 22 [(A "new" 494 1337 1340 22 22 []); (B "generic_type" 495 1341 1352 22 22 [(B "type_identifier" 496 1341 1344 22 22 []); (B "type_arguments" 497 1344 1352 22 22 [(A "<" 498 1344 1345 22 22 []); (B "type_identifier" 499 1345 1351 22 22 []); (A ">" 500 1351 1352 22 22 [])])] # "type"); (B "argument_list" 501 1352 1479 22 22 [(A "(" 502 1352 1353 22 22 []); (B "binary_expression" 503 1353 1478 22 22 [(B "identifier" 504 1353 1410 22 22 [] # "left"); (A "&&" 505 1411 1413 22 22 [] # "operator"); (B "identifier" 506 1414 1478 22 22 [] # "right")]); (A ")" 507 1478 1479 22 22 [])] # "arguments")] # "value")] # "declarator"); (A ";" 508 1479 1480 22 22 [])]); (B "local_variable_declaration" 509 1485 1519 23 23 [(B "generic_type" 510 1485 1496 23 23 [(B "type_identifier" 511 1485 1488 23 23 []); (B "type_arguments" 512 1488 1496 23 23 [(A "<" 513 1488 1489 23 23 []); (B "type_identifier" 514 1489 1495 23 23 []); (A ">" 515 1495 1496 23 23 [])])] # "type"); (B "variable_declarator" 516 1497 1518 23 23 [(B "identifier" 517 1497 1498 23 23 [] # "name"); (B "assignment_operator" 518 1499 1500 23 23 [(A "=" 519 1499 1500 23 23 [])]); (B "array_creation_expression" 520 1501 1518 23 23 [(A "new" 521 1501 1504 23 23 []); (B "generic_type" 522 1505 1516 23 23 [(B "type_identifier" 523 1505 1508 23 23 []); (B "type_arguments" 524 1508 1516 23 23 [(A "<" 525 1508 1509 23 23 []); (B "type_identifier" 526 1509 1515 23 23 []); (A ">" 527 1515 1516 23 23 [])])] # "type"); (B "array_initializer" 528 1516 1518 23 23 [(A "{" 529 1516 1517 23 23 []); (A "}" 530 1517 1518 23 23 [])] # "value")] # "value")] # "declarator"); (A ";" 531 1518 1519 23 23 [])]); (B "local_variable_declaration" 532 1524 1566 24 24 [(B "generic_type" 533 1524 1535 24 24 [(B "type_identifier" 534 1524 1527 24 24 []); (B "type_arguments" 535 1527 1535 24 24 [(A "<" 536 1527 1528 24 24 []); (B "type_identifier" 537 1528 1534 24 24 []); (A ">" 538 1534 1535 24 24 [])])] # "type"); (B "variable_declarator" 539 1536 1565 24 24 [(B "identifier" 540 1536 1537 24 24 [] # "name"); (B "assignment_operator" 541 1538 1539 24 24 [(A "=" 542 1538 1539 24 24 [])]); (B "array_creation_expression" 543 1540 1565 24 24 [(A "new" 544 1540 1543 24 24 []); (B "generic_type" 545 1544 1555 24 24 [(B "type_identifier" 546 1544 1547 24 24 []); (B "type_arguments" 547 1547 1555 24 24 [(A "<" 548 1547 1548 24 24 []); (B "type_identifier" 549 1548 1554 24 24 []); (A ">" 550 1554 1555 24 24 [])])] # "type"); (B "array_initializer" 551 1555 1565 24 24 [(A "{" 552 1555 1556 24 24 []); (B "string_literal" 553 1556 1559 24 24 []); (A "," 554 1559 1560 24 24 []); (B "string_literal" 555 1561 1564 24 24 []); (A "}" 556 1564 1565 24 24 [])] # "value")] # "value")] # "declarator"); (A ";" 557 1565 1566 24 24 [])]); (B "local_variable_declaration" 558 1571 1655 25 25 [(B "generic_type" 559 1571 1582 25 25 [(B "type_identifier" 560 1571 1574 25 25 []); (B "type_arguments" 561 1574 1582 25 25 [(A "<" 562 1574 1575 25 25 []); (B "type_identifier" 563 1575 1581 25 25 []); (A ">" 564 1581 1582 25 25 [])])] # "type"); (B "variable_declarator" 565 1583 1654 25 25 [(B "identifier" 566 1583 1584 25 25 [] # "name"); (B "assignment_operator" 567 1585 1586 25 25 [(A "=" 568 1585 1586 25 25 [])]); (B "array_creation_expression" 569 1587 1654 25 25 [(A "new" 570 1587 1590 25 25 []); (B "generic_type" 571 1591 1602 25 25 [(B "type_identifier" 572 1591 1594 25 25 []); (B "type_arguments" 573 1594 1602 25 25 [(A "<" 574 1594 1595 25 25 []); (B "type_identifier" 575 1595 1601 25 25 []); (A ">" 576 1601 1602 25 25 [])])] # "type"); (B "array_initializer" 577 1602 1654 25 25 [(A "{" 578 1602 1603 25 25 []); (B "string_literal" 579 1603 1627 25 25 []); (A "," 580 1627 1628 25 25 []); (B "string_literal" 581 1629 1653 25 25 []); (A "}" 582 1653 1654 25 25 [])] # "value")] # "value")] # "declarator"); (A ";" 583 1654 1655 25 25 [])]); (A "}" 584 1658 1659 26 26 [])] # "body")]); (B "method_declaration" 585 1663 2954 28 46 [(B "void_type" 586 1663 1667 28 28 [] # "type"); (B "identifier" 587 1668 1678 28 28 [] # "name"); (B "formal_parameters" 588 1678 1680 28 28 [(A "(" 589 1678 1679 28 28 []); (A ")" 590 1679 1680 28 28 [])] # "parameters"); (B "block" 591 1681 2954 28 46 [(A "{" 592 1681 1682 28 28 []); (B "local_variable_declaration" 593 1687 1737 29 29 [(B "generic_type" 594 1687 1706 29 29 [(B "type_identifier" 595 1687 1690 29 29 []); (B "type_arguments" 596 1690 1706 29 29 [(A "<" 597 1690 1691 29 29 []); (B "type_identifier" 598 1691 1697 29 29 []); (A "," 599 1697 1698 29 29 []); (B "type_identifier" 600 1699 1705 29 29 []); (A ">" 601 1705 1706 29 29 [])])] # "type"); (B "variable_declarator" 602 1707 1736 29 29 [(B "identifier" 603 1707 1708 29 29 [] # "name"); (B "assignment_operator" 604 1709 1710 29 29 [(A "=" 605 1709 1710 29 29 [])]); (B "object_creation_expression" 606 1711 1736 29 29 [(A "new" 607 1711 1714 29 29 []); (B "generic_type" 608 1715 1734 29 29 [(B "type_identifier" 609 1715 1718 29 29 []); (B "type_arguments" 610 1718 1734 29 29 [(A "<" 611 1718 1719 29 29 []); (B "type_identifier" 612 1719 1725 29 29 []); (A "," 613 1725 1726 29 29 []); (B "type_identifier" 614 1727 1733 29 29 []); (A ">" 615 1733 1734 29 29 [])])] # "type"); (B "argument_list" 616 1734 1736 29 29 [(A "(" 617 1734 1735 29 29 []); (A ")" 618 1735 1736 29 29 [])] # "arguments")] # "value")] # "declarator"); (A ";" 619 1736 1737 29 29 [])]); (B "local_variable_declaration" 620 1742 1797 30 30 [(B "generic_type" 621 1742 1761 30 30 [(B "type_identifier" 622 1742 1745 30 30 []); (B "type_arguments" 623 1745 1761 30 30 [(A "<" 624 1745 1746 30 30 []); (B "type_identifier" 625 1746 1752 30 30 []); (A "," 626 1752 1753 30 30 []); (B "type_identifier" 627 1754 1760 30 30 []); (A ">" 628 1760 1761 30 30 [])])] # "type"); (B "variable_declarator" 629 1762 1796 30 30 [(B "identifier" 630 1762 1767 30 30 [] # "name"); (B "assignment_operator" 631 1768 1769 30 30 [(A "=" 632 1768 1769 30 30 [])]); (B "object_creation_expression" 633 1770 1796 30 30 [(A "new" 634 1770 1773 30 30 []); (B "generic_type" 635 1774 1793 30 30 [(B "type_identifier" 636 1774 1777 30 30 []); (B "type_arguments" 637 1777 1793 30 30 [(A "<" 638 1777 1778 30 30 []); (B "type_identifier" 639 1778 1784 30 30 []); (A "," 640 1784 1785 30 30 []); (B "type_identifier" 641 1786 1792 30 30 []); (A ">" 642 1792 1793 30 30 [])])] # "type"); (B "argument_list" 643 1793 1796 30 30 [(A "(" 644 1793 1794 30 30 []); (B "identifier" 645 1794 1795 30 30 []); (A ")" 646 1795 1796 30 30 [])] # "arguments")] # "value")] # "declarator"); (A ";" 647 1796 1797 30 30 [])]); (B "local_variable_declaration" 648 1802 1908 31 31 [(B "generic_type" 649 1802 1821 31 31 [(B "type_identifier" 650 1802 1805 31 31 []); (B "type_arguments" 651 1805 1821 31 31 [(A "<" 652 1805 1806 31 31 []); (B "type_identifier" 653 1806 1812 31 31 []); (A "," 654 1812 1813 31 31 []); (B "type_identifier" 655 1814 1820 31 31 []); (A ">" 656 1820 1821 31 31 [])])] # "type"); (B "variable_declarator" 657 1822 1907 31 31 [(B "identifier" 658 1822 1879 31 31 [] # "name"); (B "assignment_operator" 659 1880 1881 31 31 [(A "=" 660 1880 1881 31 31 [])]); (B "object_creation_expression" 661 1882 1907 31 31 [(A "new" 662 1882 1885 31 31 []); (B "generic_type" 663 1886 1905 31 31 [(B "type_identifier" 664 1886 1889 31 31 []); (B "type_arguments" 665 1889 1905 31 31 [(A "<" 666 1889 1890 31 31 []); (B "type_identifier" 667 1890 1896 31 31 []); (A "," 668 1896 1897 31 31 []); (B "type_identifier" 669 1898 1904 31 31 []); (A ">" 670 1904 1905 31 31 [])])] # "type"); (B "argument_list" 671 1905 1907 31 31 [(A "(" 672 1905 1906 31 31 []); (A ")" 673 1906 1907 31 31 [])] # "arguments")] # "value")] # "declarator"); (A ";" 674 1907 1908 31 31 [])]); (B "local_variable_declaration" 675 1913 2030 32 32 [(B "generic_type" 676 1913 1932 32 32 [(B "type_identifier" 677 1913 1916 32 32 []); (B "type_arguments" 678 1916 1932 32 32 [(A "<" 679 1916 1917 32 32 []); (B "type_identifier" 680 1917 1923 32 32 []); (A "," 681 1923 1924 32 32 []); (B "type_identifier" 682 1925 1931 32 32 []); (A ">" 683 1931 1932 32 32 [])])] # "type"); (B "variable_declarator" 684 1933 2029 32 32 [(B "identifier" 685 1933 1938 32 32 [] # "name"); (B "assignment_operator" 686 1939 1940 32 32 [(A "=" 687 1939 1940 32 32 [])]); (B "object_creation_expression" 688 1941 2029 32 32 [(A "new" 689 1941 1944 32 32 []); (B "generic_type" 690 1945 1964 32 32 [(B "type_identifier" 691 1945 1948 32 32 []); (B "type_arguments" 692 1948 1964 32 32 [(A "<" 693 1948 1949 32 32 []); (B "type_identifier" 694 1949 1955 32 32 []); (A "," 695 1955 1956 32 32 []); (B "type_identifier" 696 1957 1963 32 32 []); (A ">" 697 1963 1964 32 32 [])])] # "type"); (B "argument_list" 698 1964 2029 32 32 [(A "(" 699 1964 1965 32 32 []); (B "method_invocation" 700 1965 2028 32 32 [(B "method_invocation" 701 1965 2009 32 32 [(B "method_invocation" 702 1965 1993 32 32 [(B "identifier" 703 1965 1981 32 32 [] # "object"); (A "." 704 1981 1982 32 32 []); (B "identifier" 705 1982 1991 32 32 [] # "name"); (B "argument_list" 706 1991 1993 32 32 [(A "(" 707 1991 1992 32 32 []); (A ")" 708 1992 1993 32 32 [])] # "arguments")] # "object"); (A "." 709 1993 1994 32 32 []); (B "identifier" 710 1994 2007 32 32 [] # "name"); (B "argument_list" 711 2007 2009 32 32 [(A "(" 712 2007 2008 32 32 []); (A ")" 713 2008 2009 32 32 [])] # "arguments")] # "object"); (A "." 714 2009 2010 32 32 []); (B "identifier" 715 2010 2026 32 32 [] # "name"); (B "argument_list" 716 2026 2028 32 32 [(A "(" 717 2026 2027 32 32 []); (A ")" 718 2027 2028 32 32 [])] # "arguments")]); (A ")" 719 2028 2029 32 32 [])] # "arguments")] # "value")] # "declarator"); (A ";" 720 2029 2030 32 32 [])]); (B "local_variable_declaration" 721 2035 2193 33 33 [(B "generic_type" 722 2035 2054 33 33 [(B "type_identifier" 723 2035 2038 33 33 []); (B "type_arguments" 724 2038 2054 33 33 [(A "<" 725 2038 2039 33 33 []); (B "type_identifier" 726 2039 2045 33 33 []); (A "," 727 2045 2046 33 33 []); (B "type_identifier" 728 2047 2053 33 33 []); (A ">" 729 2053 2054 33 33 [])])] # "type"); (B "variable_declarator" 730 2055 2192 33 33 [(B "identifier" 731 2055 2060 33 33 [] # "name"); (B "assignment_operator" 732 2061 2062 33 33 [(A "=" 733 2061 2062 33 33 [])]); (B "object_creation_expression" 734 2063 2192 33 33 [(A "new" 735 2063 2066 33 33 []); (B "generic_type" 736 2067 2086 33 33 [(B "type_identifier" 737 2067 2070 33 33 []); (B "type_arguments" 738 2070 2086 33 33 [(A "<" 739 2070 2071 33 33 []); (B "type_identifier" 740 2071 2077 33 33 []); (A "," 741 2077 2078 33 33 []); (B "type_identifier" 742 2079 2085 33 33 []); (A ">" 743 2085 2086 33 33 [])])] # "type"); (B "argument_list" 744 2086 2192 33 33 [(A "(" 745 2086 2087 33 33 []); (B "method_invocation" 746 2087 2191 33 33 [(B "method_invocation" 747 2087 2172 33 33 [(B "method_invocation" 748 2087 2156 33 33 [(B "identifier" 749 2087 2144 33 33 [] # "object"); (A "." 750 2144 2145 33 33 []); (B "identifier" 751 2145 2154 33 33 [] # "name"); (B "argument_list" 752 2154 2156 33 33 [(A "(" 753 2154 2155 33 33 []); (A ")" 754 2155 2156 33 33 [])] # "arguments")] # "object"); (A "." 755 2156 2157 33 33 []); (B "identifier" 756 2157 2170 33 33 [] # "name"); (B "argument_list" 757 2170 2172 33 33 [(A "(" 758 2170 2171 33 33 []); (A ")" 759 2171 2172 33 33 [])] # "arguments")] # "object"); (A "." 760 2172 2173 33 33 []); (B "identifier" 761 2173 2189 33 33 [] # "name"); (B "argument_list" 762 2189 2191 33 33 [(A "(" 763 2189 2190 33 33 []); (A ")" 764 2190 2191 33 33 [])] # "arguments")]); (A ")" 765 2191 2192 33 33 [])] # "arguments")] # "value")] # "declarator"); (A ";" 766 2192 2193 33 33 [])]); (B "local_variable_declaration" 767 2198 2377 34 34 [(B "generic_type" 768 2198 2217 34 34 [(B "type_identifier" 769 2198 2201 34 34 []); (B "type_arguments" 770 2201 2217 34 34 [(A "<" 771 2201 2202 34 34 []); (B "type_identifier" 772 2202 2208 34 34 []); (A "," 773 2208 2209 34 34 []); (B "type_identifier" 774 2210 2216 34 34 []); (A ">" 775 2216 2217 34 34 [])])] # "type"); (B "variable_declarator" 776 2218 2376 34 34 [(B "identifier" 777 2218 2223 34 34 [] # "name"); (B "assignment_operator" 778 2224 2225 34 34 [(A "=" 779 2224 2225 34 34 [])]); (B "object_creation_expression" 780 2226 2376 34 34 [(A "new" 781 2226 2229 34 34 []); (B "generic_type" 782 2230 2249 34 34 [(B "type_identifier" 783 2230 2233 34 34 []); (B "type_arguments" 784 2233 2249 34 34 [(A "<" 785 2233 2234 34 34 []); (B "type_identifier" 786 2234 2240 34 34 []); (A "," 787 2240 2241 34 34 []); (B "type_identifier" 788 2242 2248 34 34 []); (A ">" 789 2248 2249 34 34 [])])] # "type"); (B "argument_list" 790 2249 2376 34 34 [(A "(" 791 2249 2250 34 34 []); (B "binary_expression" 792 2250 2375 34 34 [(B "identifier" 793 2250 2307 34 34 [] # "left"); (A "&&" 794 2308 2310 34 34 [] # "operator"); (B "identifier" 795 2311 2375 34 34 [] # "right")]); (A ")" 796 2375 2376 34 34 [])] # "arguments")] # "value")] # "declarator"); (A ";" 797 2376 2377 34 34 [])]); (B "local_variable_declaration" 798 2382 2432 35 35 [(B "generic_type" 799 2382 2401 35 35 [(B "type_identifier" 800 2382 2385 35 35 []); (B "type_arguments" 801 2385 2401 35 35 [(A "<" 802 2385 2386 35 35 []); (B "type_identifier" 803 2386 2392 35 35 []); (A "," 804 2392 2393 35 35 []); (B "type_identifier" 805 2394 2400 35 35 []); (A ">" 806 2400 2401 35 35 [])])] # "type"); (B "variable_declarator" 807 2402 2431 35 35 [(B "identifier" 808 2402 2403 35 35 [] # "name"); (B "assignment_operator" 809 2404 2405 35 35 [(A "=" 810 2404 2405 35 35 [])]); (B "map_creation_expression" 811 2406 2431 35 35 [(A "new" 812 2406 2409 35 35 []); (B "generic_type" 813 2410 2429 35 35 [(B "type_identifier" 814 2410 2413 35 35 []); (B "type_arguments" 815 2413 2429 35 35 [(A "<" 816 2413 2414 35 35 []); (B "type_identifier" 817 2414 2420 35 35 []); (A "," 818 2420 2421 35 35 []); (B "type_identifier" 819 2422 2428 35 35 []); (A ">" 820 2428 2429 35 35 [])])] # "type"); (B "map_initializer" 821 2429 2431 35 35 [(A "{" 822 2429 2430 35 35 []); (A "}" 823 2430 2431 35 35 [])] # "value")] # "value")] # "declarator"); (A ";" 824 2431 2432 35 35 [])]); (B "local_variable_declaration" 825 2437 2509 36 36 [(B "generic_type" 826 2437 2456 36 36 [(B "type_identifier" 827 2437 2440 36 36 []); (B "type_arguments" 828 2440 2456 36 36 [(A "<" 829 2440 2441 36 36 []); (B "type_identifier" 830 2441 2447 36 36 []); (A "," 831 2447 2448 36 36 []); (B "type_identifier" 832 2449 2455 36 36 []); (A ">" 833 2455 2456 36 36 [])])] # "type"); (B "variable_declarator" 834 2457 2508 36 36 [(B "identifier" 835 2457 2458 36 36 [] # "name"); (B "assignment_operator" 836 2459 2460 36 36 [(A "=" 837 2459 2460 36 36 [])]); (B "map_creation_expression" 838 2461 2508 36 36 [(A "new" 839 2461 2464 36 36 []); (B "generic_type" 840 2465 2484 36 36 [(B "type_identifier" 841 2465 2468 36 36 []); (B "type_arguments" 842 2468 2484 36 36 [(A "<" 843 2468 2469 36 36 []); (B "type_identifier" 844 2469 2475 36 36 []); (A "," 845 2475 2476 36 36 []); (B "type_identifier" 846 2477 2483 36 36 []); (A ">" 847 2483 2484 36 36 [])])] # "type"); (B "map_initializer" 848 2484 2508 36 36 [(A "{" 849 2484 2485 36 36 []); (B "map_key_initializer" 850 2485 2495 36 36 [(B "string_literal" 851 2485 2488 36 36 []); (A "=>" 852 2489 2491 36 36 []); (B "string_literal" 853 2492 2495 36 36 [])]); (A "," 854 2495 2496 36 36 []); (B "map_key_initializer" 855 2497 2507 36 36 [(B "string_literal" 856 2497 2500 36 36 []); (A "=>" 857 2501 2503 36 36 []); (B "string_literal" 858 2504 2507 36 36 [])]); (A "}" 859 2507 2508 36 36 [])] # "value")] # "value")] # "declarator"); (A ";" 860 2508 2509 36 36 [])]); (B "local_variable_declaration" 861 2514 2654 37 37 [(B "generic_type" 862 2514 2533 37 37 [(B "type_identifier" 863 2514 2517 37 37 []); (B "type_arguments" 864 2517 2533 37 37 [(A "<" 865 2517 2518 37 37 []); (B "type_identifier" 866 2518 2524 37 37 []); (A "," 867 2524 2525 37 37 []); (B "type_identifier" 868 2526 2532 37 37 []); (A ">" 869 2532 2533 37 37 [])])] # "type"); (B "variable_declarator" 870 2534 2653 37 37 [(B "identifier" 871 2534 2535 37 37 [] # "name"); (B "assignment_operator" 872 2536 2537 37 37 [(A "=" 873 2536 2537 37 37 [])]); (B "map_creation_expression" 874 2538 2653 37 37 [(A "new" 875 2538 2541 37 37 []); (B "generic_type" 876 2542 2561 37 37 [(B "type_identifier" 877 2542 2545 37 37 []); (B "type_arguments" 878 2545 2561 37 37 [(A "<" 879 2545 2546 37 37 []); (B "type_identifier" 880 2546 2552 37 37 []); (A "," 881 2552 2553 37 37 []); (B "type_identifier" 882 2554 2560 37 37 []); (A ">" 883 2560 2561 37 37 [])])] # "type"); (B "map_initializer" 884 2561 2653 37 37 [(A "{" 885 2561 2562 37 37 []); (B "map_key_initializer" 886 2562 2602 37 37 [(B "string_literal" 887 2562 2579 37 37 []); (A "=>" 888 2580 2582 37 37 []); (B "string_literal" 889 2583 2602 37 37 [])]); (A "," 890 2602 2603 37 37 []); (B "map_key_initializer" 891 2604 2652 37 37 [(B "string_literal" 892 2604 2625 37 37 []); (A "=>" 893 2626 2628 37 37 []); (B "string_literal" 894 2629 2652 37 37 [])]); (A "}" 895 2652 2653 37 37 [])] # "value")] # "value")] # "declarator"); (A ";" 896 2653 2654 37 37 [])]); (B "local_variable_declaration" 897 2659 2789 38 41 [(B "generic_type" 898 2659 2680 38 38 [(B "type_identifier" 899 2659 2662 38 38 []); (B "type_arguments" 900 2662 2680 38 38 [(A "<" 901 2662 2663 38 38 []); (B "type_identifier" 902 2663 2669 38 38 []); (A "," 903 2669 2670 38 38 []); (B "array_type" 904 2671 2679 38 38 [(B "type_identifier" 905 2671 2677 38 38 [] # "element"); (B "dimensions" 906 2677 2679 38 38 [(A "[" 907 2677 2678 38 38 []); (A "]" 908 2678 2679 38 38 [])] # "dimensions")]); (A ">" 909 2679 2680 38 38 [])])] # "type"); (B "variable_declarator" 910 2681 2788 38 41 [(B "identifier" 911 2681 2682 38 38 [] # "name"); (B "assignment_operator" 912 2683 2684 38 38 [(A "=" 913 2683 2684 38 38 [])]); (B "map_creation_expression" 914 2685 2788 38 41 [(A "new" 915 2685 2688 38 38 []); (B "generic_type" 916 2689 2710 38 38 [(B "type_identifier" 917 2689 2692 38 38 []); (B "type_arguments" 918 2692 2710 38 38 [(A "<" 919 2692 2693 38 38 []); (B "type_identifier" 920 2693 2699 38 38 []); (A "," 921 2699 2700 38 38 []); (B "array_type" 922 2701 2709 38 38 [(B "type_identifier" 923 2701 2707 38 38 [] # "element"); (B "dimensions" 924 2707 2709 38 38 [(A "[" 925 2707 2708 38 38 []); (A "]" 926 2708 2709 38 38 [])] # "dimensions")]); (A ">" 927 2709 2710 38 38 [])])] # "type"); (B "map_initializer" 928 2710 2788 38 41 [(A "{" 929 2710 2711 38 38 []); (B "map_key_initializer" 930 2718 2746 39 39 [(B "string_literal" 931 2718 2721 39 39 []); (A "=>" 932 2722 2724 39 39 []); (B "array_creation_expression" 933 2725 2746 39 39 [(A "new" 934 2725 2728 39 39 []); (B "type_identifier" 935 2729 2735 39 39 [] # "type"); (B "dimensions" 936 2735 2737 39 39 [(A "[" 937 2735 2736 39 39 []); (A "]" 938 2736 2737 39 39 [])] # "dimensions"); (B "array_initializer" 939 2737 2746 39 39 [(A "{" 940 2737 2738 39 39 []); (B "string_literal" 941 2738 2741 39 39 []); (A "," 942 2741 2742 39 39 []); (B "string_literal" 943 2742 2745 39 39 []); (A "}" 944 2745 2746 39 39 [])] # "value")])]); (A "," 945 2746 2747 39 39 []); (B "map_key_initializer" 946 2754 2782 40 40 [(B "string_literal" 947 2754 2757 40 40 []); (A "=>" 948 2758 2760 40 40 []); (B "array_creation_expression" 949 2761 2782 40 40 [(A "new" 950 2761 2764 40 40 []); (B "type_identifier" 951 2765 2771 40 40 [] # "type"); (B "dimensions" 952 2771 2773 40 40 [(A "[" 953 2771 2772 40 40 []); (A "]" 954 2772 2773 40 40 [])] # "dimensions"); (B "array_initializer" 955 2773 2782 40 40 [(A "{" 956 2773 2774 40 40 []); (B "string_literal" 957 2774 2777 40 40 []); (A "," 958 2777 2778 40 40 []); (B "string_literal" 959 2778 2781 40 40 []); (A "}" 960 2781 2782 40 40 [])] # "value")])]); (A "}" 961 2787 2788 41 41 [])] # "value")] # "value")] # "declarator"); (A ";" 962 2788 2789 41 41 [])]); (B "local_variable_declaration" 963 2794 2950 42 45 [(B "generic_type" 964 2794 2814 42 42 [(B "type_identifier" 965 2794 2797 42 42 []); (B "type_arguments" 966 2797 2814 42 42 [(A "<" 967 2797 2798 42 42 []); (B "type_identifier" 968 2798 2804 42 42 []); (A "," 969 2804 2805 42 42 []); (B "type_identifier" 970 2806 2813 42 42 []); (A ">" 971 2813 2814 42 42 [])])] # "type"); (B "variable_declarator" 972 2815 2949 42 45 [(B "identifier" 973 2815 2850 42 42 [] # "name"); (B "assignment_operator" 974 2851 2852 42 42 [(A "=" 975 2851 2852 42 42 [])]); (B "map_creation_expression" 976 2853 2949 42 45 [(A "new" 977 2853 2856 42 42 []); (B "generic_type" 978 2857 2877 42 42 [(B "type_identifier" 979 2857 2860 42 42 []); (B "type_arguments" 980 2860 2877 42 42 [(A "<" 981 2860 2861 42 42 []); (B "type_identifier" 982 2861 2867 42 42 []); (A "," 983 2867 2868 42 42 []); (B "type_identifier" 984 2869 2876 42 42 []); (A ">" 985 2876 2877 42 42 [])])] # "type"); (B "map_initializer" 986 2882 2949 43 45 [(A "{" 987 2882 2883 43 43 []); (B "map_key_initializer" 988 2883 2899 43 43 [(B "string_literal" 989 2883 2895 43 43 []); (A "=>" 990 2895 2897 43 43 []); (B "int" 991 2898 2899 43 43 [])]); (A "," 992 2899 2900 43 43 []); (B "map_key_initializer" 993 2905 2922 44 44 [(B "string_literal" 994 2905 2917 44 44 []); (A "=>" 995 2918 2920 44 44 []); (B "int" 996 2921 2922 44 44 [])]); (A "," 997 2923 2924 44 44 []); (B "map_key_initializer" 998 2929 2947 45 45 [(B "string_literal" 999 2929 2941 45 45 []); (A "=>" 1000 2941 2943 45 45 []); (B "int" 1001 2944 2947 45 45 [])]); (A "}" 1002 2948 2949 45 45 [])] # "value")] # "value")] # "declarator"); (A ";" 1003 2949 2950 45 45 [])]); (A "}" 1004 2953 2954 46 46 [])] # "body")]); (B "method_declaration" 1005 2958 3587 48 58 [(B "void_type" 1006 2958 2962 48 48 [] # "type"); (B "identifier" 1007 2963 2978 48 48 [] # "name"); (B "formal_parameters" 1008 2978 2980 48 48 [(A "(" 1009 2978 2979 48 48 []); (A ")" 1010 2979 2980 48 48 [])] # "parameters"); (B "block" 1011 2981 3587 48 58 [(A "{" 1012 2981 2982 48 48 []); (B "local_variable_declaration" 1013 2987 3032 49 49 [(B "type_identifier" 1014 2987 2994 49 49 [] # "type"); (B "variable_declarator" 1015 2995 3031 49 49 [(B "identifier" 1016 2995 2996 49 49 [] # "name"); (B "assignment_operator" 1017 2997 2998 49 49 [(A "=" 1018 2997 2998 49 49 [])]); (B "object_creation_expression" 1019 2999 3031 49 49 [(A "new" 1020 2999 3002 49 49 []); (B "type_identifier" 1021 3003 3010 49 49 [] # "type"); (B "argument_list" 1022 3010 3031 49 49 [(A "(" 1023 3010 3011 49 49 []); (B "assignment_expression" 1024 3011 3030 49 49 [(B "identifier" 1025 3011 3015 49 49 [] # "left"); (B "assignment_operator" 1026 3015 3016 49 49 [(A "=" 1027 3015 3016 49 49 [])] # "operator"); (B "string_literal" 1028 3016 3030 49 49 [] # "right")]); (A ")" 1029 3030 3031 49 49 [])] # "arguments")] # "value")] # "declarator"); (A ";" 1030 3031 3032 49 49 [])]); (B "local_variable_declaration" 1031 3037 3135 50 50 [(B "type_identifier" 1032 3037 3044 50 50 [] # "type"); (B "variable_declarator" 1033 3045 3134 50 50 [(B "identifier" 1034 3045 3046 50 50 [] # "name"); (B "assignment_operator" 1035 3047 3048 50 50 [(A "=" 1036 3047 3048 50 50 [])]); (B "object_creation_expression" 1037 3049 3134 50 50 [(A "new" 1038 3049 3052 50 50 []); (B "type_identifier" 1039 3053 3060 50 50 [] # "type"); (B "argument_list" 1040 3060 3134 50 50 [(A "(" 1041 3060 3061 50 50 []); (B "assignment_expression" 1042 3061 3080 50 50 [(B "identifier" 1043 3061 3065 50 50 [] # "left"); (B "assignment_operator" 1044 3065 3066 50 50 [(A "=" 1045 3065 3066 50 50 [])] # "operator"); (B "string_literal" 1046 3066 3080 50 50 [] # "right")]); (A "," 1047 3080 3081 50 50 []); (B "assignment_expression" 1048 3082 3133 50 50 [(B "identifier" 1049 3082 3093 50 50 [] # "left"); (B "assignment_operator" 1050 3093 3094 50 50 [(A "=" 1051 3093 3094 50 50 [])] # "operator"); (B "string_literal" 1052 3094 3133 50 50 [] # "right")]); (A ")" 1053 3133 3134 50 50 [])] # "arguments")] # "value")] # "declarator"); (A ";" 1054 3134 3135 50 50 [])]); (B "local_variable_declaration" 1055 3140 3288 51 51 [(B "type_identifier" 1056 3140 3147 51 51 [] # "type"); (B "variable_declarator" 1057 3148 3287 51 51 [(B "identifier" 1058 3148 3149 51 51 [] # "name"); (B "assignment_operator" 1059 3150 3151 51 51 [(A "=" 1060 3150 3151 51 51 [])]); (B "object_creation_expression" 1061 3152 3287 51 51 [(A "new" 1062 3152 3155 51 51 []); (B "type_identifier" 1063 3156 3163 51 51 [] # "type"); (B "argument_list" 1064 3163 3287 51 51 [(A "(" 1065 3163 3164 51 51 []); (B "assignment_expression" 1066 3164 3183 51 51 [(B "identifier" 1067 3164 3168 51 51 [] # "left"); (B "assignment_operator" 1068 3168 3169 51 51 [(A "=" 1069 3168 3169 51 51 [])] # "operator"); (B "string_literal" 1070 3169 3183 51 51 [] # "right")]); (A "," 1071 3183 3184 51 51 []); (B "assignment_expression" 1072 3185 3286 51 51 [(B "identifier" 1073 3185 3196 51 51 [] # "left"); (B "assignment_operator" 1074 3196 3197 51 51 [(A "=" 1075 3196 3197 51 51 [])] # "operator"); (B "binary_expression" 1076 3197 3286 51 51 [(B "string_literal" 1077 3197 3236 51 51 [] # "left"); (A "+" 1078 3237 3238 51 51 [] # "operator"); (B "string_literal" 1079 3239 3286 51 51 [] # "right")] # "right")]); (A ")" 1080 3286 3287 51 51 [])] # "arguments")] # "value")] # "declarator"); (A ";" 1081 3287 3288 51 51 [])]); (B "local_variable_declaration" 1082 3293 3428 52 54 [(B "type_identifier" 1083 3293 3300 52 52 [] # "type"); (B "variable_declarator" 1084 3301 3427 52 54 [(B "identifier" 1085 3301 3308 52 52 [] # "name"); (B "assignment_operator" 1086 3309 3310 52 52 [(A "=" 1087 3309 3310 52 52 [])]); (B "object_creation_expression" 1088 3311 3427 52 54 [(A "new" 1089 3311 3314 52 52 []); (B "type_identifier" 1090 3315 3322 52 52 [] # "type"); (B "argument_list" 1091 3322 3427 52 54 [(A "(" 1092 3322 3323 52 52 []); (B "assignment_expression" 1093 3330 3421 53 53 [(B "identifier" 1094 3330 3337 53 53 [] # "left"); (B "assignment_operator" 1095 3338 3339 53 53 [(A "=" 1096 3338 3339 53 53 [])] # "operator"); (B "method_invocation" 1097 3340 3421 53 53 [(B "identifier" 1098 3340 3344 53 53 [] # "object"); (A "." 1099 3344 3345 53 53 []); (B "identifier" 1100 3345 3354 53 53 [] # "name"); (B "argument_list" 1101 3354 3421 53 53 [(A "(" 1102 3354 3355 53 53 []); (B "map_creation_expression" 1103 3355 3420 53 53 [(A "new" 1104 3355 3358 53 53 []); (B "generic_type" 1105 3359 3378 53 53 [(B "type_identifier" 1106 3359 3362 53 53 []); (B "type_arguments" 1107 3362 3378 53 53 [(A "<" 1108 3362 3363 53 53 []); (B "type_identifier" 1109 3363 3369 53 53 []); (A "," 1110 3369 3370 53 53 []); (B "type_identifier" 1111 3371 3377 53 53 []); (A ">" 1112 3377 3378 53 53 [])])] # "type"); (B "map_initializer" 1113 3378 3420 53 53 [(A "{" 1114 3378 3379 53 53 []); (B "map_key_initializer" 1115 3379 3399 53 53 [(B "string_literal" 1116 3379 3388 53 53 []); (A "=>" 1117 3389 3391 53 53 []); (B "string_literal" 1118 3392 3399 53 53 [])]); (A "," 1119 3399 3400 53 53 []); (B "map_key_initializer" 1120 3401 3419 53 53 [(B "string_literal" 1121 3401 3408 53 53 []); (A "=>" 1122 3409 3411 53 53 []); (B "string_literal" 1123 3412 3419 53 53 [])]); (A "}" 1124 3419 3420 53 53 [])] # "value")]); (A ")" 1125 3420 3421 53 53 [])] # "arguments")] # "right")]); (A ")" 1126 3426 3427 54 54 [])] # "arguments")] # "value")] # "declarator"); (A ";" 1127 3427 3428 54 54 [])]); (B "local_variable_declaration" 1128 3433 3583 55 57 [(B "type_identifier" 1129 3433 3440 55 55 [] # "type"); (B "variable_declarator" 1130 3441 3582 55 57 [(B "identifier" 1131 3441 3448 55 55 [] # "name"); (B "assignment_operator" 1132 3449 3450 55 55 [(A "=" 1133 3449 3450 55 55 [])]); (B "object_creation_expression" 1134 3451 3582 55 57 [(A "new" 1135 3451 3454 55 55 []); (B "type_identifier" 1136 3455 3462 55 55 [] # "type"); (B "argument_list" 1137 3462 3582 55 57 [(A "(" 1138 3462 3463 55 55 []); (B "assignment_expression" 1139 3470 3576 56 56 [(B "identifier" 1140 3470 3477 56 56 [] # "left"); (B "assignment_operator" 1141 3478 3479 56 56 [(A "=" 1142 3478 3479 56 56 [])] # "operator"); (B "method_invocation" 1143 3480 3576 56 56 [(B "identifier" 1144 3480 3484 56 56 [] # "object"); (A "." 1145 3484 3485 56 56 []); (B "identifier" 1146 3485 3494 56 56 [] # "name"); (B "argument_list" 1147 3494 3576 56 56 [(A "(" 1148 3494 3495 56 56 []); (B "map_creation_expression" 1149 3495 3575 56 56 [(A "new" 1150 3495 3498 56 56 []); (B "generic_type" 1151 3499 3518 56 56 [(B "type_identifier" 1152 3499 3502 56 56 []); (B "type_arguments" 1153 3502 3518 56 56 [(A "<" 1154 3502 3503 56 56 []); (B "type_identifier" 1155 3503 3509 56 56 []); (A "," 1156 3509 3510 56 56 []); (B "type_identifier" 1157 3511 3517 56 56 []); (A ">" 1158 3517 3518 56 56 [])])] # "type"); (B "map_initializer" 1159 3518 3575 56 56 [(A "{" 1160 3518 3519 56 56 []); (B "map_key_initializer" 1161 3519 3539 56 56 [(B "string_literal" 1162 3519 3528 56 56 []); (A "=>" 1163 3529 3531 56 56 []); (B "string_literal" 1164 3532 3539 56 56 [])]); (A "," 1165 3539 3540 56 56 []); (B "map_key_initializer" 1166 3541 3559 56 56 [(B "string_literal" 1167 3541 3548 56 56 []); (A "=>" 1168 3549 3551 56 56 []); (B "string_literal" 1169 3552 3559 56 56 [])]); (A "," 1170 3559 3560 56 56 []); (B "map_key_initializer" 1171 3561 3574 56 56 [(B "string_literal" 1172 3561 3565 56 56 []); (A "=>" 1173 3566 3568 56 56 []); (B "string_literal" 1174 3569 3574 56 56 [])]); (A "}" 1175 3574 3575 56 56 [])] # "value")]); (A ")" 1176 3575 3576 56 56 [])] # "arguments")] # "right")]); (A ")" 1177 3581 3582 57 57 [])] # "arguments")] # "value")] # "declarator"); (A ";" 1178 3582 3583 57 57 [])]); (A "}" 1179 3586 3587 58 58 [])] # "body")]); (B "method_declaration" 1180 3591 3899 60 64 [(B "void_type" 1181 3591 3595 60 60 [] # "type"); (B "identifier" 1182 3596 3611 60 60 [] # "name"); (B "formal_parameters" 1183 3611 3613 60 60 [(A "(" 1184 3611 3612 60 60 []); (A ")" 1185 3612 3613 60 60 [])] # "parameters"); (B "block" 1186 3614 3899 60 64 [(A "{" 1187 3614 3615 60 60 []); (B "local_variable_declaration" 1188 3620 3662 61 61 [(B "type_identifier" 1189 3620 3623 61 61 [] # "type"); (B "variable_declarator" 1190 3624 3661 61 61 [(B "identifier" 1191 3624 3625 61 61 [] # "name"); (B "assignment_operator" 1192 3626 3627 61 61 [(A "=" 1193 3626 3627 61 61 [])]); (B "object_creation_expression" 1194 3628 3661 61 61 [(A "new" 1195 3628 3631 61 61 []); (B "type_identifier" 1196 3632 3635 61 61 [] # "type"); (B "argument_list" 1197 3635 3661 61 61 [(A "(" 1198 3635 3636 61 61 []); (B "string_literal" 1199 3636 3645 61 61 []); (A "," 1200 3645 3646 61 61 []); (B "string_literal" 1201 3647 3660 61 61 []); (A ")" 1202 3660 3661 61 61 [])] # "arguments")] # "value")] # "declarator"); (A ";" 1203 3661 3662 61 61 [])]); (B "local_variable_declaration" 1204 3667 3757 62 62 [(B "type_identifier" 1205 3667 3670 62 62 [] # "type"); (B "variable_declarator" 1206 3671 3756 62 62 [(B "identifier" 1207 3671 3672 62 62 [] # "name"); (B "assignment_operator" 1208 3673 3674 62 62 [(A "=" 1209 3673 3674 62 62 [])]); (B "object_creation_expression" 1210 3675 3756 62 62 [(A "new" 1211 3675 3678 62 62 []); (B "type_identifier" 1212 3679 3682 62 62 [] # "type"); (B "argument_list" 1213 3682 3756 62 62 [(A "(" 1214 3682 3683 62 62 []); (B "string_literal" 1215 3683 3728 62 62 []); (A "," 1216 3728 3729 62 62 []); (B "string_literal" 1217 3730 3755 62 62 []); (A ")" 1218 3755 3756 62 62 [])] # "arguments")] # "value")] # "declarator"); (A ";" 1219 3756 3757 62 62 [])]); (B "local_variable_declaration" 1220 3762 3895 63 63 [(B "type_identifier" 1221 3762 3765 63 63 [] # "type"); (B "variable_declarator" 1222 3766 3894 63 63 [(B "identifier" 1223 3766 3767 63 63 [] # "name"); (B "assignment_operator" 1224 3768 3769 63 63 [(A "=" 1225 3768 3769 63 63 [])]); (B "object_creation_expression" 1226 3770 3894 63 63 [(A "new" 1227 3770 3773 63 63 []); (B "type_identifier" 1228 3774 3777 63 63 [] # "type"); (B "argument_list" 1229 3777 3894 63 63 [(A "(" 1230 3777 3778 63 63 []); (B "string_literal" 1231 3778 3866 63 63 []); (A "," 1232 3866 3867 63 63 []); (B "string_literal" 1233 3868 3893 63 63 []); (A ")" 1234 3893 3894 63 63 [])] # "arguments")] # "value")] # "declarator"); (A ";" 1235 3894 3895 63 63 [])]); (A "}" 1236 3898 3899 64 64 [])] # "body")]); (B "method_declaration" 1237 3903 4530 66 83 [(B "void_type" 1238 3903 3907 66 66 [] # "type"); (B "identifier" 1239 3908 3931 66 66 [] # "name"); (B "formal_parameters" 1240 3931 3933 66 66 [(A "(" 1241 3931 3932 66 66 []); (A ")" 1242 3932 3933 66 66 [])] # "parameters"); (B "block" 1243 3934 4530 66 83 [(A "{" 1244 3934 3935 66 66 []); (B "local_variable_declaration" 1245 3940 4155 67 74 [(B "generic_type" 1246 3940 3972 67 67 [(B "type_identifier" 1247 3940 3943 67 67 []); (B "type_arguments" 1248 3943 3972 67 67 [(A "<" 1249 3943 3944 67 67 []); (B "type_identifier" 1250 3944 3950 67 67 []); (A "," 1251 3950 3951 67 67 []); (B "generic_type" 1252 3952 3971 67 67 [(B "type_identifier" 1253 3952 3955 67 67 []); (B "type_arguments" 1254 3955 3971 67 67 [(A "<" 1255 3955 3956 67 67 []); (B "type_identifier" 1256 3956 3962 67 67 []); (A "," 1257 3962 3963 67 67 []); (B "type_identifier" 1258 3964 3970 67 67 []); (A ">" 1259 3970 3971 67 67 [])])]); (A ">" 1260 3971 3972 67 67 [])])] # "type"); (B "variable_declarator" 1261 3973 4154 67 74 [(B "identifier" 1262 3973 3974 67 67 [] # "name"); (B "assignment_operator" 1263 3975 3976 67 67 [(A "=" 1264 3975 3976 67 67 [])]); (B "map_creation_expression" 1265 3977 4154 67 74 [(A "new" 1266 3977 3980 67 67 []); (B "generic_type" 1267 3981 4013 67 67 [(B "type_identifier" 1268 3981 3984 67 67 []); (B "type_arguments" 1269 3984 4013 67 67 [(A "<" 1270 3984 3985 67 67 []); (B "type_identifier" 1271 3985 3991 67 67 []); (A "," 1272 3991 3992 67 67 []); (B "generic_type" 1273 3993 4012 67 67 [(B "type_identifier" 1274 3993 3996 67 67 []); (B "type_arguments" 1275 3996 4012 67 67 [(A "<" 1276 3996 3997 67 67 []); (B "type_identifier" 1277 3997 4003 67 67 []); (A "," 1278 4003 4004 67 67 []); (B "type_identifier" 1279 4005 4011 67 67 []); (A ">" 1280 4011 4012 67 67 [])])]); (A ">" 1281 4012 4013 67 67 [])])] # "type"); (B "map_initializer" 1282 4014 4154 67 74 [(A "{" 1283 4014 4015 67 67 []); (B "map_key_initializer" 1284 4022 4081 68 70 [(B "string_literal" 1285 4022 4025 68 68 []); (A "=>" 1286 4026 4028 68 68 []); (B "map_creation_expression" 1287 4029 4081 68 70 [(A "new" 1288 4029 4032 68 68 []); (B "generic_type" 1289 4033 4052 68 68 [(B "type_identifier" 1290 4033 4036 68 68 []); (B "type_arguments" 1291 4036 4052 68 68 [(A "<" 1292 4036 4037 68 68 []); (B "type_identifier" 1293 4037 4043 68 68 []); (A "," 1294 4043 4044 68 68 []); (B "type_identifier" 1295 4045 4051 68 68 []); (A ">" 1296 4051 4052 68 68 [])])] # "type"); (B "map_initializer" 1297 4053 4081 68 70 [(A "{" 1298 4053 4054 68 68 []); (B "map_key_initializer" 1299 4063 4073 69 69 [(B "string_literal" 1300 4063 4066 69 69 []); (A "=>" 1301 4067 4069 69 69 []); (B "string_literal" 1302 4070 4073 69 69 [])]); (A "}" 1303 4080 4081 70 70 [])] # "value")])]); (A "," 1304 4081 4082 70 70 []); (B "map_key_initializer" 1305 4089 4148 71 73 [(B "string_literal" 1306 4089 4092 71 71 []); (A "=>" 1307 4093 4095 71 71 []); (B "map_creation_expression" 1308 4096 4148 71 73 [(A "new" 1309 4096 4099 71 71 []); (B "generic_type" 1310 4100 4119 71 71 [(B "type_identifier" 1311 4100 4103 71 71 []); (B "type_arguments" 1312 4103 4119 71 71 [(A "<" 1313 4103 4104 71 71 []); (B "type_identifier" 1314 4104 4110 71 71 []); (A "," 1315 4110 4111 71 71 []); (B "type_identifier" 1316 4112 4118 71 71 []); (A ">" 1317 4118 4119 71 71 [])])] # "type"); (B "map_initializer" 1318 4120 4148 71 73 [(A "{" 1319 4120 4121 71 71 []); (B "map_key_initializer" 1320 4130 4140 72 72 [(B "string_literal" 1321 4130 4133 72 72 []); (A "=>" 1322 4134 4136 72 72 []); (B "string_literal" 1323 4137 4140 72 72 [])]); (A "}" 1324 4147 4148 73 73 [])] # "value")])]); (A "}" 1325 4153 4154 74 74 [])] # "value")] # "value")] # "declarator"); (A ";" 1326 4154 4155 74 74 [])]); (B "local_variable_declaration" 1327 4160 4272 75 77 [(B "generic_type" 1328 4160 4185 75 75 [(B "type_identifier" 1329 4160 4163 75 75 []); (B "type_arguments" 1330 4163 4185 75 75 [(A "<" 1331 4163 4164 75 75 []); (B "type_identifier" 1332 4164 4170 75 75 []); (A "," 1333 4170 4171 75 75 []); (B "generic_type" 1334 4172 4184 75 75 [(B "type_identifier" 1335 4172 4176 75 75 []); (B "type_arguments" 1336 4176 4184 75 75 [(A "<" 1337 4176 4177 75 75 []); (B "type_identifier" 1338 4177 4183 75 75 []); (A ">" 1339 4183 4184 75 75 [])])]); (A ">" 1340 4184 4185 75 75 [])])] # "type"); (B "variable_declarator" 1341 4186 4271 75 77 [(B "identifier" 1342 4186 4187 75 75 [] # "name"); (B "assignment_operator" 1343 4188 4189 75 75 [(A "=" 1344 4188 4189 75 75 [])]); (B "map_creation_expression" 1345 4190 4271 75 77 [(A "new" 1346 4190 4193 75 75 []); (B "generic_type" 1347 4194 4219 75 75 [(B "type_identifier" 1348 4194 4197 75 75 []); (B "type_arguments" 1349 4197 4219 75 75 [(A "<" 1350 4197 4198 75 75 []); (B "type_identifier" 1351 4198 4204 75 75 []); (A "," 1352 4204 4205 75 75 []); (B "generic_type" 1353 4206 4218 75 75 [(B "type_identifier" 1354 4206 4210 75 75 []); (B "type_arguments" 1355 4210 4218 75 75 [(A "<" 1356 4210 4211 75 75 []); (B "type_identifier" 1357 4211 4217 75 75 []); (A ">" 1358 4217 4218 75 75 [])])]); (A ">" 1359 4218 4219 75 75 [])])] # "type"); (B "map_initializer" 1360 4220 4271 75 77 [(A "{" 1361 4220 4221 75 75 []); (B "map_key_initializer" 1362 4228 4265 76 76 [(B "string_literal" 1363 4228 4231 76 76 []); (A "=>" 1364 4232 4234 76 76 []); (B "array_creation_expression" 1365 4235 4265 76 76 [(A "new" 1366 4235 4238 76 76 []); (B "generic_type" 1367 4239 4251 76 76 [(B "type_identifier" 1368 4239 4243 76 76 []); (B "type_arguments" 1369 4243 4251 76 76 [(A "<" 1370 4243 4244 76 76 []); (B "type_identifier" 1371 4244 4250 76 76 []); (A ">" 1372 4250 4251 76 76 [])])] # "type"); (B "array_initializer" 1373 4252 4265 76 76 [(A "{" 1374 4252 4253 76 76 []); (B "string_literal" 1375 4253 4256 76 76 []); (A "," 1376 4256 4257 76 76 []); (B "string_literal" 1377 4257 4260 76 76 []); (A "," 1378 4260 4261 76 76 []); (B "string_literal" 1379 4261 4264 76 76 []); (A "}" 1380 4264 4265 76 76 [])] # "value")])]); (A "}" 1381 4270 4271 77 77 [])] # "value")] # "value")] # "declarator"); (A ";" 1382 4271 4272 77 77 [])]); (B "local_variable_declaration" 1383 4277 4472 78 81 [(B "generic_type" 1384 4277 4308 78 78 [(B "type_identifier" 1385 4277 4280 78 78 []); (B "type_arguments" 1386 4280 4308 78 78 [(A "<" 1387 4280 4281 78 78 []); (B "generic_type" 1388 4281 4293 78 78 [(B "type_identifier" 1389 4281 4285 78 78 []); (B "type_arguments" 1390 4285 4293 78 78 [(A "<" 1391 4285 4286 78 78 []); (B "type_identifier" 1392 4286 4292 78 78 []); (A ">" 1393 4292 4293 78 78 [])])]); (A "," 1394 4293 4294 78 78 []); (B "generic_type" 1395 4295 4307 78 78 [(B "type_identifier" 1396 4295 4299 78 78 []); (B "type_arguments" 1397 4299 4307 78 78 [(A "<" 1398 4299 4300 78 78 []); (B "type_identifier" 1399 4300 4306 78 78 []); (A ">" 1400 4306 4307 78 78 [])])]); (A ">" 1401 4307 4308 78 78 [])])] # "type"); (B "variable_declarator" 1402 4309 4471 78 81 [(B "identifier" 1403 4309 4310 78 78 [] # "name"); (B "assignment_operator" 1404 4311 4312 78 78 [(A "=" 1405 4311 4312 78 78 [])]); (B "map_creation_expression" 1406 4313 4471 78 81 [(A "new" 1407 4313 4316 78 78 []); (B "generic_type" 1408 4317 4348 78 78 [(B "type_identifier" 1409 4317 4320 78 78 []); (B "type_arguments" 1410 4320 4348 78 78 [(A "<" 1411 4320 4321 78 78 []); (B "generic_type" 1412 4321 4333 78 78 [(B "type_identifier" 1413 4321 4325 78 78 []); (B "type_arguments" 1414 4325 4333 78 78 [(A "<" 1415 4325 4326 78 78 []); (B "type_identifier" 1416 4326 4332 78 78 []); (A ">" 1417 4332 4333 78 78 [])])]); (A "," 1418 4333 4334 78 78 []); (B "generic_type" 1419 4335 4347 78 78 [(B "type_identifier" 1420 4335 4339 78 78 []); (B "type_arguments" 1421 4339 4347 78 78 [(A "<" 1422 4339 4340 78 78 []); (B "type_identifier" 1423 4340 4346 78 78 []); (A ">" 1424 4346 4347 78 78 [])])]); (A ">" 1425 4347 4348 78 78 [])])] # "type"); (B "map_initializer" 1426 4349 4471 78 81 [(A "{" 1427 4349 4350 78 78 []); (B "map_key_initializer" 1428 4357 4407 79 79 [(B "array_creation_expression" 1429 4357 4378 79 79 [(A "new" 1430 4357 4360 79 79 []); (B "generic_type" 1431 4361 4373 79 79 [(B "type_identifier" 1432 4361 4365 79 79 []); (B "type_arguments" 1433 4365 4373 79 79 [(A "<" 1434 4365 4366 79 79 []); (B "type_identifier" 1435 4366 4372 79 79 []); (A ">" 1436 4372 4373 79 79 [])])] # "type"); (B "array_initializer" 1437 4373 4378 79 79 [(A "{" 1438 4373 4374 79 79 []); (B "string_literal" 1439 4374 4377 79 79 []); (A "}" 1440 4377 4378 79 79 [])] # "value")]); (A "=>" 1441 4379 4381 79 79 []); (B "array_creation_expression" 1442 4382 4407 79 79 [(A "new" 1443 4382 4385 79 79 []); (B "generic_type" 1444 4386 4398 79 79 [(B "type_identifier" 1445 4386 4390 79 79 []); (B "type_arguments" 1446 4390 4398 79 79 [(A "<" 1447 4390 4391 79 79 []); (B "type_identifier" 1448 4391 4397 79 79 []); (A ">" 1449 4397 4398 79 79 [])])] # "type"); (B "array_initializer" 1450 4398 4407 79 79 [(A "{" 1451 4398 4399 79 79 []); (B "string_literal" 1452 4399 4402 79 79 []); (A "," 1453 4402 4403 79 79 []); (B "string_literal" 1454 4403 4406 79 79 []); (A "}" 1455 4406 4407 79 79 [])] # "value")])]); (A "," 1456 4407 4408 79 79 []); (B "map_key_initializer" 1457 4415 4465 80 80 [(B "array_creation_expression" 1458 4415 4436 80 80 [(A "new" 1459 4415 4418 80 80 []); (B "generic_type" 1460 4419 4431 80 80 [(B "type_identifier" 1461 4419 4423 80 80 []); (B "type_arguments" 1462 4423 4431 80 80 [(A "<" 1463 4423 4424 80 80 []); (B "type_identifier" 1464 4424 4430 80 80 []); (A ">" 1465 4430 4431 80 80 [])])] # "type"); (B "array_initializer" 1466 4431 4436 80 80 [(A "{" 1467 4431 4432 80 80 []); (B "string_literal" 1468 4432 4435 80 80 []); (A "}" 1469 4435 4436 80 80 [])] # "value")]); (A "=>" 1470 4437 4439 80 80 []); (B "array_creation_expression" 1471 4440 4465 80 80 [(A "new" 1472 4440 4443 80 80 []); (B "generic_type" 1473 4444 4456 80 80 [(B "type_identifier" 1474 4444 4448 80 80 []); (B "type_arguments" 1475 4448 4456 80 80 [(A "<" 1476 4448 4449 80 80 []); (B "type_identifier" 1477 4449 4455 80 80 []); (A ">" 1478 4455 4456 80 80 [])])] # "type"); (B "array_initializer" 1479 4456 4465 80 80 [(A "{" 1480 4456 4457 80 80 []); (B "string_literal" 1481 4457 4460 80 80 []); (A "," 1482 4460 4461 80 80 []); (B "string_literal" 1483 4461 4464 80 80 []); (A "}" 1484 4464 4465 80 80 [])] # "value")])]); (A "}" 1485 4470 4471 81 81 [])] # "value")] # "value")] # "declarator"); (A ";" 1486 4471 4472 81 81 [])]); (B "local_variable_declaration" 1487 4477 4526 82 82 [(B "generic_type" 1488 4477 4495 82 82 [(B "type_identifier" 1489 4477 4481 82 82 []); (B "type_arguments" 1490 4481 4495 82 82 [(A "<" 1491 4481 4482 82 82 []); (B "generic_type" 1492 4482 4494 82 82 [(B "type_identifier" 1493 4482 4486 82 82 []); (B "type_arguments" 1494 4486 4494 82 82 [(A "<" 1495 4486 4487 82 82 []); (B "type_identifier" 1496 4487 4493 82 82 []); (A ">" 1497 4493 4494 82 82 [])])]); (A ">" 1498 4494 4495 82 82 [])])] # "type"); (B "variable_declarator" 1499 4496 4525 82 82 [(B "identifier" 1500 4496 4497 82 82 [] # "name"); (B "assignment_operator" 1501 4498 4499 82 82 [(A "=" 1502 4498 4499 82 82 [])]); (B "object_creation_expression" 1503 4500 4525 82 82 [(A "new" 1504 4500 4503 82 82 []); (B "generic_type" 1505 4504 4522 82 82 [(B "type_identifier" 1506 4504 4508 82 82 []); (B "type_arguments" 1507 4508 4522 82 82 [(A "<" 1508 4508 4509 82 82 []); (B "generic_type" 1509 4509 4521 82 82 [(B "type_identifier" 1510 4509 4513 82 82 []); (B "type_arguments" 1511 4513 4521 82 82 [(A "<" 1512 4513 4514 82 82 []); (B "type_identifier" 1513 4514 4520 82 82 []); (A ">" 1514 4520 4521 82 82 [])])]); (A ">" 1515 4521 4522 82 82 [])])] # "type"); (B "argument_list" 1516 4522 4525 82 82 [(A "(" 1517 4522 4523 82 82 []); (B "int" 1518 4523 4524 82 82 []); (A ")" 1519 4524 4525 82 82 [])] # "arguments")] # "value")] # "declarator"); (A ";" 1520 4525 4526 82 82 [])]); (A "}" 1521 4529 4530 83 83 [])] # "body")]); (A "}" 1522 4531 4532 84 84 [])] # "body")])]).
Example static_NewObject : as_expected static_NewObject_source static_NewObject_tree (U "class NewObject {
  void newListTest() {
    List<String> a = new List<String>();
    List<String> aCopy =
      new List<String>(
        veryLongVariable.getOneSet().getAnotherSet().getYetAnotherSet()
      );
    List<String> aCopy =
      new List<String>(
        superDuperVeryInsanelyLongVariableNameThatWillSurelyBreak
          .getOneSet()
          .getAnotherSet()
          .getYetAnotherSet()
      );
    List<String> aCopy =
      new List<String>(
        superDuperVeryInsanelyLongVariableNameThatWillSurelyBreak
        && anotherSuperDuperVeryInsanelyLongVariableNameThatWillSurelyBreak
      );
    List<String> aCopy = new List<String>(a);
    List<String> b = new String[]{};
    String[] c = new String[]{};
    String[] d = new String[]{ 'a', 'b' };
    String[] e =
      new String[]{ 'Long string number one', 'Long string number two' };
    String[] f = new String[1];
    String[] g = new List<String>(f);
    String[] h = new String[0];
  }

  void newSetTest() {
    Set<String> a = new Set<String>();
    Set<String> aCopy = new Set<String>(aCopy);
    Set<String> superDuperVeryInsanelyLongVariableNameThatWillSurelyBreak =
      new Set<String>();
    Set<String> aCopy =
      new Set<String>(
        veryLongVariable.getOneSet().getAnotherSet().getYetAnotherSet()
      );
    Set<String> aCopy =
      new Set<String>(
        superDuperVeryInsanelyLongVariableNameThatWillSurelyBreak
          .getOneSet()
          .getAnotherSet()
          .getYetAnotherSet()
      );
    Set<String> aCopy =
      new Set<String>(
        superDuperVeryInsanelyLongVariableNameThatWillSurelyBreak
        && anotherSuperDuperVeryInsanelyLongVariableNameThatWillSurelyBreak
      );
    Set<String> b = new Set<String>{};
    Set<String> c = new Set<String>{ 'a', 'b' };
    Set<String> c =
      new Set<String>{ 'Long string number one', 'Long string number two' };
  }

  void newMapTest() {
    Map<String, String> a = new Map<String, String>();
    Map<String, String> aCopy = new Map<String, String>(a);
    Map<String, String> superDuperVeryInsanelyLongVariableNameThatWillSurelyBreak =
      new Map<String, String>();
    Map<String, String> aCopy =
      new Map<String, String>(
        veryLongVariable.getOneSet().getAnotherSet().getYetAnotherSet()
      );
    Map<String, String> aCopy =
      new Map<String, String>(
        superDuperVeryInsanelyLongVariableNameThatWillSurelyBreak
          .getOneSet()
          .getAnotherSet()
          .getYetAnotherSet()
      );
    Map<String, String> aCopy =
      new Map<String, String>(
        superDuperVeryInsanelyLongVariableNameThatWillSurelyBreak
        && anotherSuperDuperVeryInsanelyLongVariableNameThatWillSurelyBreak
      );
    Map<String, String> b = new Map<String, String>{};
    Map<String, String> c = new Map<String, String>{ 'a' => 'b', 'c' => 'd' };
    Map<String, String> c =
      new Map<String, String>{
        'Long string key' => 'Long string value',
        'Long string key two' => 'Long string value two'
      };
    Map<String, String[]> d =
      new Map<String, String[]>{
        'a' => new String[]{ 'a', 'b' },
        'b' => new String[]{ 'c', 'd' }
      };
    Map<String, Decimal> fmaIntegerParameterNameDefaultValue =
      new Map<string, decimal>{
        'Parameter1' => 1,
        'Parameter2' => 0,
        'Parameter3' => 500
      };
  }

  void newKeyValueTest() {
    Account a = new Account(Name = 'Account Name');
    Account b =
      new Account(
        Name = 'Account Name',
        Description = 'Account Description That Is Very Long'
      );
    Account b =
      new Account(
        Name = 'Account Name',
        Description =
          'Account Description That Is Very Long'
          + 'Some Other Description That Is Also Very Long'
      );
    Account account =
      new Account(
        Body__c =
          JSON.serialize(
            new Map<String, Object>{ 'Content' => 'Hello', 'World' => 'There' }
          )
      );
    Account account =
      new Account(
        Body__c =
          JSON.serialize(
            new Map<String, Object>{
              'Content' => 'Hello',
              'World' => 'There',
              'Hi' => 'Yes'
            }
          )
      );
  }

  void newStandardTest() {
    JWS a = new JWS('payload', 'certDevName');
    JWS b =
      new JWS(
        'Very long payload but still fit in one line',
        'very long cert dev name'
      );
    JWS c =
      new JWS(
        'Very long payload that is definitely too long so that all the parent groups must break',
        'very long cert dev name'
      );
  }

  void newComplicatedTypesTest() {
    Map<String, Map<String, String>> a =
      new Map<String, Map<String, String>>{
        'a' => new Map<String, String>{ 'b' => 'c' },
        'd' => new Map<String, String>{ 'e' => 'f' }
      };
    Map<String, List<String>> b =
      new Map<String, List<String>>{ 'b' => new List<String>{ 'c', 'd', 'e' } };
    Map<List<String>, List<String>> c =
      new Map<List<String>, List<String>>{
        new List<String>{ 'a' } => new List<String>{ 'b', 'c' },
        new List<String>{ 'd' } => new List<String>{ 'e', 'f' }
      };
    List<List<String>> d = new List<List<String>>(5);
  }
}
").
Proof. apply run_test_ok. vm_compute. reflexivity. Qed.

(* tests/static/Ternary.in *)
Definition static_Ternary_source : ustr := U "class Ternary {
  void ternaryWithMethodCall() {
    veryLongVariableNameThatWillSurelyBreak == 'Yes' ? VeryLongClassNameThatWillForSureBeTooLongForThisMethodToNotBreak.someMethod() : VeryLongClassNameThatWillForSureBeTooLongForThisMethodToNotBreak.anotherMethod();

      String msg1 = num > 10 ? 'Number is greater than 10' : 'Number is equal to 10';

      String msg2 = num > 10 ? 'Number is greater than 10' : 'Number is less than or equal to 10';

      List<String> a = (veryLongVariableNameThatWillSurelyBreak == 'Yes' ? new List<String>{ 'First One', 'Second One', 'Third One', 'Fourth One', 'Fifth One' } : new List<String>{ 'First One', 'Second One', 'Third One', 'Fourth One', 'Fifth One', 'Sixth One' });

      veryLongVariableNameThatWillSurelyBreak == 'Yes' ? new List<String>{ 'First One', 'Second One', 'Third One', 'Fourth One', 'Fifth One' } : new List<String>{ 'First One', 'Second One', 'Third One', 'Fourth One', 'Fifth One', 'Sixth One' };

  }
}
".
Definition static_Ternary_tree : span := (B "parser_output" 1 0 971 0 14 [(B "class_declaration" 2 0 970 0 13 [(A "class" 3 0 5 0 0 []); (B "identifier" 4 6 13 0 0 [] # "name"); (B "class_body" 5 14 970 0 13 [(A "{" 6 14 15 0 0 []); (B "method_declaration" 7 18 968 1 12 [(B "void_type" 8 18 22 1 1 [] # "type"); (B "identifier" 9 23 44 1 1 [] # "name"); (B "formal_parameters" 10 44 46 1 1 [(A "(" 11 44 45 1 1 []); (A ")" 12 45 46 1 1 [])] # "parameters"); (B "block" 13 47 968 1 12 [(A "{" 14 47 48 1 1 []); (B "expression_statement" 15 53 265 2 2 [(B "ternary_expression" 16 53 264 2 2 [(B "binary_expression" 17 53 101 2 2 [(B "identifier" 18 53 92 2 2 [] # "left"); (A "==" 19 93 95 2 2 [] # "operator"); (B "string_literal" 20 96 101 2 2 [] # "right")] # "condition"); (A "?" 21 102 103 2 2 []); (B "method_invocation" 22 104 181 2 2 [(B "identifier" 23 104 168 2 2 [] # "object"); (A "." 24 168 169 2 2 []); (B "identifier" 25 169 179 2 2 [] # "name"); (B "argument_list" 26 179 181 2 2 [(A "(" 27 179 180 2 2 []); (A ")" 28 180 181 2 2 [])] # "arguments")] # "consequence"); (A ":" 29 182 183 2 2 []); (B "method_invocation" 30 184 264 2 2 [(B "identifier" 31 184 248 2 2 [] # "object"); (A "." 32 248 249 2 2 []); (B "identifier" 33 249 262 2 2 [] # "name"); (B "argument_list" 34 262 264 2 2 [(A "(" 35 262 263 2 2 []); (A ")" 36 263 264 2 2 [])] # "arguments")] # "alternative")]); (A ";" 37 264 265 2 2 [])]); (B "local_variable_declaration" 38 273 352 4 4 [(B "type_identifier" 39 273 279 4 4 [] # "type"); (B "variable_declarator" 40 280 351 4 4 [(B "identifier" 41 280 284 4 4 [] # "name"); (B "assignment_operator" 42 285 286 4 4 [(A "=" 43 285 286 4 4 [])]); (B "ternary_expression" 44 287 351 4 4 [(B "binary_expression" 45 287 295 4 4 [(B "identifier" 46 287 290 4 4 [] # "left"); (A ">" 47 291 292 4 4 [] # "operator"); (B "int" 48 293 295 4 4 [] # "right")] # "condition"); (A "?" 49 296 297 4 4 []); (B "string_literal" 50 298 325 4 4 [] # "consequence"); (A ":" 51 326 327 4 4 []); (B "string_literal" 52 328 351 4 4 [] # "alternative")] # "value")] # "declarator"); (A ";" 53 351 352 4 4 [])]); (B "local_variable_declaration" 54 360 452 6 6 [(B "type_identifier" 55 360 366 6 6 [] # "type"); (B "variable_declarator" 56 367 451 6 6 [(B "identifier" 57 367 371 6 6 [] # "name"); (B "assignment_operator" 58 372 373 6 6 [(A "=" 59 372 373 6 6 [])]); (B "ternary_expression" 60 374 451 6 6 [(B "binary_expression" 61 374 382 6 6 [(B "identifier" 62 374 377 6 6 [] # "left"); (A ">" 63 378 379 6 6 [] # "operator"); (B "int" 64 380 382 6 6 [] # "right")] # "condition"); (A "?" 65 383 384 6 6 []); (B "string_literal" 66 385 412 6 6 [] # "consequence"); (A ":" 67 413 414 6 6 []); (B "string_literal" 68 415 451 6 6 [] # "alternative")] # "value")] # "declarator"); (A ";" 69 451 452 6 6 [])]); (B "local_variable_declaration" 70 460 717 8 8 [(B "generic_type" 71 460 472 8 8 [(B "type_identifier" 72 460 464 8 8 []); (B "type_arguments" 73 464 472 8 8 [(A "<" 74 464 465 8 8 []); (B "type_identifier" 75 465 471 8 8 []); (A ">" 76 471 472 8 8 [])])] # "type"); (B "variable_declarator" 77 473 716 8 8 [(B "identifier" 78 473 474 8 8 [] # "name"); (B "assignment_operator" 79 475 476 8 8 [(A "=" 80 475 476 8 8 [])]); (B "parenthesized_expression" 81 477 716 8 8 [(A "(" 82 477 478 8 8 []); (B "ternary_expression" 83 478 715 8 8 [(B "binary_expression" 84 478 526 8 8 [(B "identifier" 85 478 517 8 8 [] # "left"); (A "==" 86 518 520 8 8 [] # "operator"); (B "string_literal" 87 521 526 8 8 [] # "right")] # "condition"); (A "?" 88 527 528 8 8 []); (B "array_creation_expression" 89 529 614 8 8 [(A "new" 90 529 532 8 8 []); (B "generic_type" 91 533 545 8 8 [(B "type_identifier" 92 533 537 8 8 []); (B "type_arguments" 93 537 545 8 8 [(A "<" 94 537 538 8 8 []); (B "type_identifier" 95 538 544 8 8 []); (A ">" 96 544 545 8 8 [])])] # "type"); (B "array_initializer" 97 545 614 8 8 [(A "{" 98 545 546 8 8 []); (B "string_literal" 99 547 558 8 8 []); (A "," 100 558 559 8 8 []); (B "string_literal" 101 560 572 8 8 []); (A "," 102 572 573 8 8 []); (B "string_literal" 103 574 585 8 8 []); (A "," 104 585 586 8 8 []); (B "string_literal" 105 587 599 8 8 []); (A "," 106 599 600 8 8 []); (B "string_literal" 107 601 612 8 8 []); (A "}" 108 613 614 8 8 [])] # "value")] # "consequence"); (A ":" 109 615 616 8 8 []); (B "array_creation_expression" 110 617 715 8 8 [(A "new" 111 617 620 8 8 []); (B "generic_type" 112 621 633 8 8 [(B "type_identifier" 113 621 625 8 8 []); (B "type_arguments" 114 625 633 8 8 [(A "<" 115 625 626 8 8 []); (B "type_identifier" 116 626 632 8 8 []); (A ">" 117 632 633 8 8 [])])] # "type"); (B "array_initializer" 118 633 715 8 8 [(A "{" 119 633 634 8 8 []); (B "string_literal" 120 635 646 8 8 []); (A "," 121 646 647 8 8 []); (B "string_literal" 122 648 660 8 8 []); (A "," 123 660 661 8 8 []); (B "string_literal" 124 662 673 8 8 []); (A "," 125 673 674 8 8 []); (B "string_literal" 126 675 687 8 8 []); (A "," 127 687 688 8 8 []); (B "string_literal" 128 689 700 8 8 []); (A "," 129 700 701 8 8 []); (B "string_literal" 130 702 713 8 8 []); (A "}" 131 714 715 8 8 [])] # "value")] # "alternative")]); (A ")" 132 715 716 8 8 [])] # "value")] # "declarator"); (A ";" 133 716 717 8 8 [])]); (B "expression_statement" 134 725 963 10 10 [(B "ternary_expression" 135 725 962 10 10 [(B "binary_expression" 136 725 773 10 10 [(B "identifier" 137 725 764 10 10 [] # "left"); (A "==" 138 765 767 10 10 [] # "operator"); (B "string_literal" 139 768 773 10 10 [] # "right")] # "condition"); (A "?" 140 774 775 10 10 []); (B "array_creation_expression" 141 776 861 10 10 [(A "new" 142 776 779 10 10 []); (B "generic_type" 143 780 792 10 10 [(B "type_identifier" 144 780 784 10 10 []); (B "type_arguments" 145 784 792 10 10 [(A "<" 146 784 785 10 10 []); (B "type_identifier" 147 785 791 10 10 []); (A ">" 148 791 792 10 10 [])])] # "type"); (B "array_initializer" 149 792 861 10 10 [(A "{" 150 792 793 10 10 []); (B "string_literal" 151 794 805 10 10 []); (A "," 152 805 806 10 10 []); (B "string_literal" 153 807 819 10 10 []); (A "," 154 819 820 10 10 []); (B "string_literal" 155 821 832 10 10 []); (A "," 156 832 833 10 10 []); (B "string_literal" 157 834 846 10 10 []); (A "," 158 846 847 10 10 []); (B "string_literal" 159 848 859 10 10 []); (A "}" 160 860 861 10 10 [])] # "value")] # "consequence"); (A ":" 161 862 863 10 10 []); (B "array_creation_expression" 162 864 962 10 10 [(A "new" 163 864 867 10 10 []); (B "generic_type" 164 868 880 10 10 [(B "type_identifier" 165 868 872 10 10 []); (B "type_arguments" 166 872 880 10 10 [(A "<" 167 872 873 10 10 []); (B "type_identifier" 168 873 879 10 10 []); (A ">" 169 879 880 10 10 [])])] # "type"); (B "array_initializer" 170 880 962 10 10 [(A "{" 171 880 881 10 10 []); (B "string_literal" 172 882 893 10 10 []); (A "," 173 893 894 10 10 []); (B "string_literal" 174 895 907 10 10 []); (A "," 175 907 908 10 10 []); (B "string_literal" 176 909 920 10 10 []); (A "," 177 920 921 10 10 []); (B "string_literal" 178 922 934 10 10 []); (A "," 179 934 935 10 10 []); (B "string_literal" 180 936 947 10 10 []); (A "," 181 947 948 10 10 []); (B "string_literal" 182 949 960 10 10 []); (A "}" 183 961 962 10 10 [])] # "value")] # "alternative")]); (A ";" 184 962 963 10 10 [])]); (A "}" 185 967 968 12 12 [])] # "body")]); (A "}" 186 969 970 13 13 [])] # "body")])]).
Example static_Ternary : as_expected static_Ternary_source static_Ternary_tree (U "class Ternary {
  void ternaryWithMethodCall() {
    veryLongVariableNameThatWillSurelyBreak == 'Yes'
    ? VeryLongClassNameThatWillForSureBeTooLongForThisMethodToNotBreak.someMethod()
    : VeryLongClassNameThatWillForSureBeTooLongForThisMethodToNotBreak.anotherMethod();

    String msg1 =
      num > 10 ? 'Number is greater than 10' : 'Number is equal to 10';

    String msg2 =
      num > 10
      ? 'Number is greater than 10'
      : 'Number is less than or equal to 10';

    List<String> a =
      (
        veryLongVariableNameThatWillSurelyBreak == 'Yes'
        ? new List<String>{
          'First One',
          'Second One',
          'Third One',
          'Fourth One',
          'Fifth One'
        }
        : new List<String>{
          'First One',
          'Second One',
          'Third One',
          'Fourth One',
          'Fifth One',
          'Sixth One'
        }
      );

    veryLongVariableNameThatWillSurelyBreak == 'Yes'
    ? new List<String>{
      'First One',
      'Second One',
      'Third One',
      'Fourth One',
      'Fifth One'
    }
    : new List<String>{
      'First One',
      'Second One',
      'Third One',
      'Fourth One',
      'Fifth One',
      'Sixth One'
    };
  }
}
").
Proof. apply run_test_ok. vm_compute. reflexivity. Qed.

(* tests/static/assignment.in *)
Definition static_assignment_source : ustr := U "Class A{
  {
    b = 'Very Long String Literal That Will Break The Line For Sure Without Help From Any Other Element'[0];
  }
}
".
Definition static_assignment_tree : span := (B "parser_output" 1 0 128 0 5 [(B "class_declaration" 2 0 127 0 4 [(A "class" 3 0 5 0 0 []); (B "identifier" 4 6 7 0 0 [] # "name"); (B "class_body" 5 7 127 0 4 [(A "{" 6 7 8 0 0 []); (B "block" 7 11 125 1 3 [(A "{" 8 11 12 1 1 []); (B "expression_statement" 9 17 121 2 2 [(B "assignment_expression" 10 17 120 2 2 [(B "identifier" 11 17 18 2 2 [] # "left"); (B "assignment_operator" 12 19 20 2 2 [(A "=" 13 19 20 2 2 [])] # "operator"); (B "array_access" 14 21 120 2 2 [(B "string_literal" 15 21 117 2 2 [] # "array"); (A "[" 16 117 118 2 2 []); (B "int" 17 118 119 2 2 [] # "index"); (A "]" 18 119 120 2 2 [])] # "right")]); (A ";" 19 120 121 2 2 [])]); (A "}" 20 124 125 3 3 [])]); (A "}" 21 126 127 4 4 [])] # "body")])]).
Example static_assignment : as_expected static_assignment_source static_assignment_tree (U "class A {
  {
    b =
      'Very Long String Literal That Will Break The Line For Sure Without Help From Any Other Element'[0];
  }
}
").
Proof. apply run_test_ok. vm_compute. reflexivity. Qed.

(* tests/static/binary_exp.in *)
Definition static_binary_exp_source : ustr := U "class A {
  {
    b > 1 && c > 1;

    queryLocator =
      System.Database.getQueryLocator(
        [
          SELECT Id
          FROM Log__c
          WHERE
            (LogRetentionDate__c <= :LOG_RETENTION_END_DATE
            AND LogRetentionDate__c != NULL)
            OR TotalLogEntries__c = 0
          ORDER BY LogRetentionDate__c
        ]
      );

    queryLocator =
      System.Database.getQueryLocator(
        'aaaaaaaaaaaaaaaaaaaaaaaaaaaaaa' + 'bbbbbbbbbbbbbbbbbbbbbbbbbbb'
      );
  }
}

".
Definition static_binary_exp_tree : span := (B "parser_output" 1 0 510 0 24 [(B "class_declaration" 2 0 508 0 22 [(A "class" 3 0 5 0 0 []); (B "identifier" 4 6 7 0 0 [] # "name"); (B "class_body" 5 8 508 0 22 [(A "{" 6 8 9 0 0 []); (B "block" 7 12 506 1 21 [(A "{" 8 12 13 1 1 []); (B "expression_statement" 9 18 33 2 2 [(B "binary_expression" 10 18 32 2 2 [(B "binary_expression" 11 18 23 2 2 [(B "identifier" 12 18 19 2 2 [] # "left"); (A ">" 13 20 21 2 2 [] # "operator"); (B "int" 14 22 23 2 2 [] # "right")] # "left"); (A "&&" 15 24 26 2 2 [] # "operator"); (B "binary_expression" 16 27 32 2 2 [(B "identifier" 17 27 28 2 2 [] # "left"); (A ">" 18 29 30 2 2 [] # "operator"); (B "int" 19 31 32 2 2 [] # "right")] # "right")]); (A ";" 20 32 33 2 2 [])]); (B "expression_statement" 21 39 361 4 15 [(B "assignment_expression" 22 39 360 4 15 [(B "identifier" 23 39 51 4 4 [] # "left"); (B "assignment_operator" 24 52 53 4 4 [(A "=" 25 52 53 4 4 [])] # "operator"); (B "method_invocation" 26 60 360 5 15 [(B "field_access" 27 60 75 5 5 [(B "identifier" 28 60 66 5 5 [] # "object"); (A "." 29 66 67 5 5 []); (B "identifier" 30 67 75 5 5 [] # "field")] # "object"); (A "." 31 75 76 5 5 []); (B "identifier" 32 76 91 5 5 [] # "name"); (B "argument_list" 33 91 360 5 15 [(A "(" 34 91 92 5 5 []); (B "query_expression" 35 101 352 6 14 [(A "[" 36 101 102 6 6 []); (B "soql_query_body" 37 113 342 7 13 [(B "select_clause" 38 113 122 7 7 [(A "SELECT" 39 113 119 7 7 []); (B "field_identifier" 40 120 122 7 7 [(B "identifier" 41 120 122 7 7 [])])] # "select_clause"); (B "from_clause" 42 133 144 8 8 [(A "FROM" 43 133 137 8 8 []); (B "storage_identifier" 44 138 144 8 8 [(B "identifier" 45 138 144 8 8 [])])] # "from_clause"); (B "where_clause" 46 155 303 9 12 [(A "WHERE" 47 155 160 9 9 []); (B "or_expression" 48 173 303 10 12 [(A "(" 49 173 174 10 10 []); (B "and_expression" 50 174 264 10 11 [(B "comparison_expression" 51 174 220 10 10 [(B "field_identifier" 52 174 193 10 10 [(B "identifier" 53 174 193 10 10 [])]); (B "value_comparison_operator" 54 194 196 10 10 [(A "<=" 55 194 196 10 10 [])]); (B "bound_apex_expression" 56 197 220 10 10 [(A ":" 57 197 198 10 10 []); (B "identifier" 58 198 220 10 10 [])])]); (A "AND" 59 233 236 11 11 []); (B "comparison_expression" 60 237 264 11 11 [(B "field_identifier" 61 237 256 11 11 [(B "identifier" 62 237 256 11 11 [])]); (B "value_comparison_operator" 63 257 259 11 11 [(A "!=" 64 257 259 11 11 [])]); (B "null_literal" 65 260 264 11 11 [])])]); (A ")" 66 264 265 11 11 []); (A "OR" 67 278 280 12 12 []); (B "comparison_expression" 68 281 303 12 12 [(B "field_identifier" 69 281 299 12 12 [(B "identifier" 70 281 299 12 12 [])]); (B "value_comparison_operator" 71 300 301 12 12 [(A "=" 72 300 301 12 12 [])]); (B "int" 73 302 303 12 12 [])])])] # "where_clause"); (B "order_by_clause" 74 314 342 13 13 [(A "ORDER" 75 314 319 13 13 []); (A "BY" 76 320 322 13 13 []); (B "order_expression" 77 323 342 13 13 [(B "field_identifier" 78 323 342 13 13 [(B "identifier" 79 323 342 13 13 [])])])] # "order_by_clause")]); (A "]" 80 351 352 14 14 [])]); (A ")" 81 359 360 15 15 [])] # "arguments")] # "right")]); (A ";" 82 360 361 15 15 [])]); (B "expression_statement" 83 367 502 17 20 [(B "assignment_expression" 84 367 501 17 20 [(B "identifier" 85 367 379 17 17 [] # "left"); (B "assignment_operator" 86 380 381 17 17 [(A "=" 87 380 381 17 17 [])] # "operator"); (B "method_invocation" 88 388 501 18 20 [(B "field_access" 89 388 403 18 18 [(B "identifier" 90 388 394 18 18 [] # "object"); (A "." 91 394 395 18 18 []); (B "identifier" 92 395 403 18 18 [] # "field")] # "object"); (A "." 93 403 404 18 18 []); (B "identifier" 94 404 419 18 18 [] # "name"); (B "argument_list" 95 419 501 18 20 [(A "(" 96 419 420 18 18 []); (B "binary_expression" 97 429 493 19 19 [(B "string_literal" 98 429 461 19 19 [] # "left"); (A "+" 99 462 463 19 19 [] # "operator"); (B "string_literal" 100 464 493 19 19 [] # "right")]); (A ")" 101 500 501 20 20 [])] # "arguments")] # "right")]); (A ";" 102 501 502 20 20 [])]); (A "}" 103 505 506 21 21 [])]); (A "}" 104 507 508 22 22 [])] # "body")])]).
Example static_binary_exp : as_expected static_binary_exp_source static_binary_exp_tree (U "class A {
  {
    b > 1 && c > 1;

    queryLocator =
      System
        .Database
        .getQueryLocator(
          [
            SELECT Id
            FROM Log__c
            WHERE
              (LogRetentionDate__c <= :LOG_RETENTION_END_DATE
              AND LogRetentionDate__c != NULL)
              OR TotalLogEntries__c = 0
            ORDER BY LogRetentionDate__c
          ]
        );

    queryLocator =
      System
        .Database
        .getQueryLocator(
          'aaaaaaaaaaaaaaaaaaaaaaaaaaaaaa' + 'bbbbbbbbbbbbbbbbbbbbbbbbbbb'
        );
  }
}
").
Proof. apply run_test_ok. vm_compute. reflexivity. Qed.

(* tests/static/binary_exp_and_soql.in *)
Definition static_binary_exp_and_soql_source : ustr := U "Class A{
  {
    Account a = [SELECT Id FROM Account
      WHERE Id = '001000000FAKEID'] ?? defaultAccount;

    Account b = [SELECT Id FROM Account
      WHERE Id = '001000000FAKEID'] ?? [SELECT Id FROM Account WHERE Id = '001000001FAKEID'];

    Account c = [SELECT Id FROM Account
      WHERE Id = '001000000FAKEID'] ?? [SELECT Id FROM Account WHERE Id = '001000001FAKEID' AND Very_Long_Field_Name__c = 'Hello'];

    string city = [Select BillingCity
      From Account
      Where Id = '001xx000000001oAAA']?.BillingCity;

  }
}
".
Definition static_binary_exp_and_soql_tree : span := (B "parser_output" 1 0 534 0 17 [(B "class_declaration" 2 0 533 0 16 [(A "class" 3 0 5 0 0 []); (B "identifier" 4 6 7 0 0 [] # "name"); (B "class_body" 5 7 533 0 16 [(A "{" 6 7 8 0 0 []); (B "block" 7 11 531 1 15 [(A "{" 8 11 12 1 1 []); (B "local_variable_declaration" 9 17 107 2 3 [(B "type_identifier" 10 17 24 2 2 [] # "type"); (B "variable_declarator" 11 25 106 2 3 [(B "identifier" 12 25 26 2 2 [] # "name"); (B "assignment_operator" 13 27 28 2 2 [(A "=" 14 27 28 2 2 [])]); (B "binary_expression" 15 29 106 2 3 [(B "query_expression" 16 29 88 2 3 [(A "[" 17 29 30 2 2 []); (B "soql_query_body" 18 30 87 2 3 [(B "select_clause" 19 30 39 2 2 [(A "SELECT" 20 30 36 2 2 []); (B "field_identifier" 21 37 39 2 2 [(B "identifier" 22 37 39 2 2 [])])] # "select_clause"); (B "from_clause" 23 40 52 2 2 [(A "FROM" 24 40 44 2 2 []); (B "storage_identifier" 25 45 52 2 2 [(B "identifier" 26 45 52 2 2 [])])] # "from_clause"); (B "where_clause" 27 59 87 3 3 [(A "WHERE" 28 59 64 3 3 []); (B "comparison_expression" 29 65 87 3 3 [(B "field_identifier" 30 65 67 3 3 [(B "identifier" 31 65 67 3 3 [])]); (B "value_comparison_operator" 32 68 69 3 3 [(A "=" 33 68 69 3 3 [])]); (B "string_literal" 34 70 87 3 3 [])])] # "where_clause")]); (A "]" 35 87 88 3 3 [])] # "left"); (A "??" 36 89 91 3 3 [] # "operator"); (B "identifier" 37 92 106 3 3 [] # "right")] # "value")] # "declarator"); (A ";" 38 106 107 3 3 [])]); (B "local_variable_declaration" 39 113 242 5 6 [(B "type_identifier" 40 113 120 5 5 [] # "type"); (B "variable_declarator" 41 121 241 5 6 [(B "identifier" 42 121 122 5 5 [] # "name"); (B "assignment_operator" 43 123 124 5 5 [(A "=" 44 123 124 5 5 [])]); (B "binary_expression" 45 125 241 5 6 [(B "query_expression" 46 125 184 5 6 [(A "[" 47 125 126 5 5 []); (B "soql_query_body" 48 126 183 5 6 [(B "select_clause" 49 126 135 5 5 [(A "SELECT" 50 126 132 5 5 []); (B "field_identifier" 51 133 135 5 5 [(B "identifier" 52 133 135 5 5 [])])] # "select_clause"); (B "from_clause" 53 136 148 5 5 [(A "FROM" 54 136 140 5 5 []); (B "storage_identifier" 55 141 148 5 5 [(B "identifier" 56 141 148 5 5 [])])] # "from_clause"); (B "where_clause" 57 155 183 6 6 [(A "WHERE" 58 155 160 6 6 []); (B "comparison_expression" 59 161 183 6 6 [(B "field_identifier" 60 161 163 6 6 [(B "identifier" 61 161 163 6 6 [])]); (B "value_comparison_operator" 62 164 165 6 6 [(A "=" 63 164 165 6 6 [])]); (B "string_literal" 64 166 183 6 6 [])])] # "where_clause")]); (A "]" 65 183 184 6 6 [])] # "left"); (A "??" 66 185 187 6 6 [] # "operator"); (B "query_expression" 67 188 241 6 6 [(A "[" 68 188 189 6 6 []); (B "soql_query_body" 69 189 240 6 6 [(B "select_clause" 70 189 198 6 6 [(A "SELECT" 71 189 195 6 6 []); (B "field_identifier" 72 196 198 6 6 [(B "identifier" 73 196 198 6 6 [])])] # "select_clause"); (B "from_clause" 74 199 211 6 6 [(A "FROM" 75 199 203 6 6 []); (B "storage_identifier" 76 204 211 6 6 [(B "identifier" 77 204 211 6 6 [])])] # "from_clause"); (B "where_clause" 78 212 240 6 6 [(A "WHERE" 79 212 217 6 6 []); (B "comparison_expression" 80 218 240 6 6 [(B "field_identifier" 81 218 220 6 6 [(B "identifier" 82 218 220 6 6 [])]); (B "value_comparison_operator" 83 221 222 6 6 [(A "=" 84 221 222 6 6 [])]); (B "string_literal" 85 223 240 6 6 [])])] # "where_clause")]); (A "]" 86 240 241 6 6 [])] # "right")] # "value")] # "declarator"); (A ";" 87 241 242 6 6 [])]); (B "local_variable_declaration" 88 248 415 8 9 [(B "type_identifier" 89 248 255 8 8 [] # "type"); (B "variable_declarator" 90 256 414 8 9 [(B "identifier" 91 256 257 8 8 [] # "name"); (B "assignment_operator" 92 258 259 8 8 [(A "=" 93 258 259 8 8 [])]); (B "binary_expression" 94 260 414 8 9 [(B "query_expression" 95 260 319 8 9 [(A "[" 96 260 261 8 8 []); (B "soql_query_body" 97 261 318 8 9 [(B "select_clause" 98 261 270 8 8 [(A "SELECT" 99 261 267 8 8 []); (B "field_identifier" 100 268 270 8 8 [(B "identifier" 101 268 270 8 8 [])])] # "select_clause"); (B "from_clause" 102 271 283 8 8 [(A "FROM" 103 271 275 8 8 []); (B "storage_identifier" 104 276 283 8 8 [(B "identifier" 105 276 283 8 8 [])])] # "from_clause"); (B "where_clause" 106 290 318 9 9 [(A "WHERE" 107 290 295 9 9 []); (B "comparison_expression" 108 296 318 9 9 [(B "field_identifier" 109 296 298 9 9 [(B "identifier" 110 296 298 9 9 [])]); (B "value_comparison_operator" 111 299 300 9 9 [(A "=" 112 299 300 9 9 [])]); (B "string_literal" 113 301 318 9 9 [])])] # "where_clause")]); (A "]" 114 318 319 9 9 [])] # "left"); (A "??" 115 320 322 9 9 [] # "operator"); (B "query_expression" 116 323 414 9 9 [(A "[" 117 323 324 9 9 []); (B "soql_query_body" 118 324 413 9 9 [(B "select_clause" 119 324 333 9 9 [(A "SELECT" 120 324 330 9 9 []); (B "field_identifier" 121 331 333 9 9 [(B "identifier" 122 331 333 9 9 [])])] # "select_clause"); (B "from_clause" 123 334 346 9 9 [(A "FROM" 124 334 338 9 9 []); (B "storage_identifier" 125 339 346 9 9 [(B "identifier" 126 339 346 9 9 [])])] # "from_clause"); (B "where_clause" 127 347 413 9 9 [(A "WHERE" 128 347 352 9 9 []); (B "and_expression" 129 353 413 9 9 [(B "comparison_expression" 130 353 375 9 9 [(B "field_identifier" 131 353 355 9 9 [(B "identifier" 132 353 355 9 9 [])]); (B "value_comparison_operator" 133 356 357 9 9 [(A "=" 134 356 357 9 9 [])]); (B "string_literal" 135 358 375 9 9 [])]); (A "AND" 136 376 379 9 9 []); (B "comparison_expression" 137 380 413 9 9 [(B "field_identifier" 138 380 403 9 9 [(B "identifier" 139 380 403 9 9 [])]); (B "value_comparison_operator" 140 404 405 9 9 [(A "=" 141 404 405 9 9 [])]); (B "string_literal" 142 406 413 9 9 [])])])] # "where_clause")]); (A "]" 143 413 414 9 9 [])] # "right")] # "value")] # "declarator"); (A ";" 144 414 415 9 9 [])]); (B "local_variable_declaration" 145 421 526 11 13 [(B "type_identifier" 146 421 427 11 11 [] # "type"); (B "variable_declarator" 147 428 525 11 13 [(B "identifier" 148 428 432 11 11 [] # "name"); (B "assignment_operator" 149 433 434 11 11 [(A "=" 150 433 434 11 11 [])]); (B "field_access" 151 435 525 11 13 [(B "query_expression" 152 435 512 11 13 [(A "[" 153 435 436 11 11 []); (B "soql_query_body" 154 436 511 11 13 [(B "select_clause" 155 436 454 11 11 [(A "SELECT" 156 436 442 11 11 []); (B "field_identifier" 157 443 454 11 11 [(B "identifier" 158 443 454 11 11 [])])] # "select_clause"); (B "from_clause" 159 461 473 12 12 [(A "FROM" 160 461 465 12 12 []); (B "storage_identifier" 161 466 473 12 12 [(B "identifier" 162 466 473 12 12 [])])] # "from_clause"); (B "where_clause" 163 480 511 13 13 [(A "WHERE" 164 480 485 13 13 []); (B "comparison_expression" 165 486 511 13 13 [(B "field_identifier" 166 486 488 13 13 [(B "identifier" 167 486 488 13 13 [])]); (B "value_comparison_operator" 168 489 490 13 13 [(A "=" 169 489 490 13 13 [])]); (B "string_literal" 170 491 511 13 13 [])])] # "where_clause")]); (A "]" 171 511 512 13 13 [])] # "object"); (B "safe_navigation_operator" 172 512 514 13 13 [(A "?." 173 512 514 13 13 [])]); (B "identifier" 174 514 525 13 13 [] # "field")] # "value")] # "declarator"); (A ";" 175 525 526 13 13 [])]); (A "}" 176 530 531 15 15 [])]); (A "}" 177 532 533 16 16 [])] # "body")])]).
Example static_binary_exp_and_soql : as_expected static_binary_exp_and_soql_source static_binary_exp_and_soql_tree (U "class A {
  {
    Account a =
      [SELECT Id FROM Account WHERE Id = '001000000FAKEID'] ?? defaultAccount;

    Account b =
      [SELECT Id FROM Account WHERE Id = '001000000FAKEID']
      ?? [SELECT Id FROM Account WHERE Id = '001000001FAKEID'];

    Account c =
      [SELECT Id FROM Account WHERE Id = '001000000FAKEID']
      ?? [
        SELECT Id
        FROM Account
        WHERE Id = '001000001FAKEID' AND Very_Long_Field_Name__c = 'Hello'
      ];

    string city =
      [SELECT BillingCity FROM Account WHERE Id = '001xx000000001oAAA']
        ?.BillingCity;
  }
}
").
Proof. apply run_test_ok. vm_compute. reflexivity. Qed.

(* tests/static/binary_exp_in_condition.in *)
Definition static_binary_exp_in_condition_source : ustr := U "class Conditional {
  {
    if ( isALongVeryAAAAAAAAAAAAAAAAAAAAAAAAAAA() || (isALongVeryBBBBBBBBBBBB()&& isC())) {
      System.debug('true');
    }
  }
}

".
Definition static_binary_exp_in_condition_tree : span := (B "parser_output" 1 0 157 0 8 [(B "class_declaration" 2 0 155 0 6 [(A "class" 3 0 5 0 0 []); (B "identifier" 4 6 17 0 0 [] # "name"); (B "class_body" 5 18 155 0 6 [(A "{" 6 18 19 0 0 []); (B "block" 7 22 153 1 5 [(A "{" 8 22 23 1 1 []); (B "if_statement" 9 28 149 2 4 [(A "if" 10 28 30 2 2 []); (B "parenthesized_expression" 11 31 113 2 2 [(A "(" 12 31 32 2 2 []); (B "binary_expression" 13 33 112 2 2 [(B "method_invocation" 14 33 73 2 2 [(B "identifier" 15 33 71 2 2 [] # "name"); (B "argument_list" 16 71 73 2 2 [(A "(" 17 71 72 2 2 []); (A ")" 18 72 73 2 2 [])] # "arguments")] # "left"); (A "||" 19 74 76 2 2 [] # "operator"); (B "parenthesized_expression" 20 77 112 2 2 [(A "(" 21 77 78 2 2 []); (B "binary_expression" 22 78 111 2 2 [(B "method_invocation" 23 78 103 2 2 [(B "identifier" 24 78 101 2 2 [] # "name"); (B "argument_list" 25 101 103 2 2 [(A "(" 26 101 102 2 2 []); (A ")" 27 102 103 2 2 [])] # "arguments")] # "left"); (A "&&" 28 103 105 2 2 [] # "operator"); (B "method_invocation" 29 106 111 2 2 [(B "identifier" 30 106 109 2 2 [] # "name"); (B "argument_list" 31 109 111 2 2 [(A "(" 32 109 110 2 2 []); (A ")" 33 110 111 2 2 [])] # "arguments")] # "right")]); (A ")" 34 111 112 2 2 [])] # "right")]); (A ")" 35 112 113 2 2 [])] # "condition"); (B "block" 36 114 149 2 4 [(A "{" 37 114 115 2 2 []); (B "expression_statement" 38 122 143 3 3 [(B "method_invocation" 39 122 142 3 3 [(B "identifier" 40 122 128 3 3 [] # "object"); (A "." 41 128 129 3 3 []); (B "identifier" 42 129 134 3 3 [] # "name"); (B "argument_list" 43 134 142 3 3 [(A "(" 44 134 135 3 3 []); (B "string_literal" 45 135 141 3 3 []); (A ")" 46 141 142 3 3 [])] # "arguments")]); (A ";" 47 142 143 3 3 [])]); (A "}" 48 148 149 4 4 [])] # "consequence")]); (A "}" 49 152 153 5 5 [])]); (A "}" 50 154 155 6 6 [])] # "body")])]).
Example static_binary_exp_in_condition : as_expected static_binary_exp_in_condition_source static_binary_exp_in_condition_tree (U "class Conditional {
  {
    if (
      isALongVeryAAAAAAAAAAAAAAAAAAAAAAAAAAA()
      || (isALongVeryBBBBBBBBBBBB() && isC())
    ) {
      System.debug('true');
    }
  }
}
").
Proof. apply run_test_ok. vm_compute. reflexivity. Qed.

(* tests/static/binary_line_wrap.in *)
Definition static_binary_line_wrap_source : ustr := U "class HelloWorld {
  {
    Boolean aaaaaaaaaaaaaaaaaa = bbbbbbbbbbbbbbbbbbbbbbbbbbbbbbbbbbbb > 1 && ccccccccccccccccccccc > 1;

    aaaaaaaaaaaaaaaaaa = bbbbbbbbbbbbbbbbbbbbbbbbbbbbbbbbbbbb > 1 && ccccccccccccccccccccc > 1;

    aaaaaaaaaaaaaaaaaa = bbbbbbbbbbbbbbbbbbbbbbbbbbbbbbbbbbbbbbbbbbbbbbbbbbbbbbb > 1 && cccccccccccccccccccccccccccccccccc > 1;

    bbbbbbbbbbbbbbbbbbbbbbbbbbbbbbbbbbbb > 1 && ccccccccccccccccccccccccccccc > 1;
  }
}
".
Definition static_binary_line_wrap_tree : span := (B "parser_output" 1 0 443 0 11 [(B "class_declaration" 2 0 442 0 10 [(A "class" 3 0 5 0 0 []); (B "identifier" 4 6 16 0 0 [] # "name"); (B "class_body" 5 17 442 0 10 [(A "{" 6 17 18 0 0 []); (B "block" 7 21 440 1 9 [(A "{" 8 21 22 1 1 []); (B "local_variable_declaration" 9 27 126 2 2 [(B "type_identifier" 10 27 34 2 2 [] # "type"); (B "variable_declarator" 11 35 125 2 2 [(B "identifier" 12 35 53 2 2 [] # "name"); (B "assignment_operator" 13 54 55 2 2 [(A "=" 14 54 55 2 2 [])]); (B "binary_expression" 15 56 125 2 2 [(B "binary_expression" 16 56 96 2 2 [(B "identifier" 17 56 92 2 2 [] # "left"); (A ">" 18 93 94 2 2 [] # "operator"); (B "int" 19 95 96 2 2 [] # "right")] # "left"); (A "&&" 20 97 99 2 2 [] # "operator"); (B "binary_expression" 21 100 125 2 2 [(B "identifier" 22 100 121 2 2 [] # "left"); (A ">" 23 122 123 2 2 [] # "operator"); (B "int" 24 124 125 2 2 [] # "right")] # "right")] # "value")] # "declarator"); (A ";" 25 125 126 2 2 [])]); (B "expression_statement" 26 132 223 4 4 [(B "assignment_expression" 27 132 222 4 4 [(B "identifier" 28 132 150 4 4 [] # "left"); (B "assignment_operator" 29 151 152 4 4 [(A "=" 30 151 152 4 4 [])] # "operator"); (B "binary_expression" 31 153 222 4 4 [(B "binary_expression" 32 153 193 4 4 [(B "identifier" 33 153 189 4 4 [] # "left"); (A ">" 34 190 191 4 4 [] # "operator"); (B "int" 35 192 193 4 4 [] # "right")] # "left"); (A "&&" 36 194 196 4 4 [] # "operator"); (B "binary_expression" 37 197 222 4 4 [(B "identifier" 38 197 218 4 4 [] # "left"); (A ">" 39 219 220 4 4 [] # "operator"); (B "int" 40 221 222 4 4 [] # "right")] # "right")] # "right")]); (A ";" 41 222 223 4 4 [])]); (B "expression_statement" 42 229 352 6 6 [(B "assignment_expression" 43 229 351 6 6 [(B "identifier" 44 229 247 6 6 [] # "left"); (B "assignment_operator" 45 248 249 6 6 [(A "=" 46 248 249 6 6 [])] # "operator"); (B "binary_expression" 47 250 351 6 6 [(B "binary_expression" 48 250 309 6 6 [(B "identifier" 49 250 305 6 6 [] # "left"); (A ">" 50 306 307 6 6 [] # "operator"); (B "int" 51 308 309 6 6 [] # "right")] # "left"); (A "&&" 52 310 312 6 6 [] # "operator"); (B "binary_expression" 53 313 351 6 6 [(B "identifier" 54 313 347 6 6 [] # "left"); (A ">" 55 348 349 6 6 [] # "operator"); (B "int" 56 350 351 6 6 [] # "right")] # "right")] # "right")]); (A ";" 57 351 352 6 6 [])]); (B "expression_statement" 58 358 436 8 8 [(B "binary_expression" 59 358 435 8 8 [(B "binary_expression" 60 358 398 8 8 [(B "identifier" 61 358 394 8 8 [] # "left"); (A ">" 62 395 396 8 8 [] # "operator"); (B "int" 63 397 398 8 8 [] # "right")] # "left"); (A "&&" 64 399 401 8 8 [] # "operator"); (B "binary_expression" 65 402 435 8 8 [(B "identifier" 66 402 431 8 8 [] # "left"); (A ">" 67 432 433 8 8 [] # "operator"); (B "int" 68 434 435 8 8 [] # "right")] # "right")]); (A ";" 69 435 436 8 8 [])]); (A "}" 70 439 440 9 9 [])]); (A "}" 71 441 442 10 10 [])] # "body")])]).
Example static_binary_line_wrap : as_expected static_binary_line_wrap_source static_binary_line_wrap_tree (U "class HelloWorld {
  {
    Boolean aaaaaaaaaaaaaaaaaa =
      bbbbbbbbbbbbbbbbbbbbbbbbbbbbbbbbbbbb > 1 && ccccccccccccccccccccc > 1;

    aaaaaaaaaaaaaaaaaa =
      bbbbbbbbbbbbbbbbbbbbbbbbbbbbbbbbbbbb > 1 && ccccccccccccccccccccc > 1;

    aaaaaaaaaaaaaaaaaa =
      bbbbbbbbbbbbbbbbbbbbbbbbbbbbbbbbbbbbbbbbbbbbbbbbbbbbbbb > 1
      && cccccccccccccccccccccccccccccccccc > 1;

    bbbbbbbbbbbbbbbbbbbbbbbbbbbbbbbbbbbb > 1
    && ccccccccccccccccccccccccccccc > 1;
  }
}
").
Proof. apply run_test_ok. vm_compute. reflexivity. Qed.

(* tests/static/chained_method1.in *)
Definition static_chained_method1_source : ustr := U "class A {
  {
    superDuperVeryInsanelyLongVariableNameThatWillSurelyBreak .getOneSet() .getAnotherSet() .getYetAnotherSet();

    t.a().b().c().d();

    return generator .objectBuilder .setExternalId(account.personContactId) .getInstance();

    String longResult =
      super.callMethod('first param').callAnotherMethod().getStringResult();

    String longResult = super.longPropertyName.anotherLongPropertyName.yetAnotherLongPropertyName;

    String longResult =
      super.longPropertyName.anotherLongPropertyName.yetAnotherLongPropertyName1;

    String longResult =
      super
        .longPropertyName
        .callMethod('first param')
        .callAnotherMethod()
        .getStringResult();

    aaaaaaaaaaaaaaaaaaaaaaaaa
      .bbbbbbbbbbbbbbbbbbbbbbbbbbbbbbbbbbbbbbbbbbbb[0]
      .cccccccccccccccccccccccccccccccccccccccccccccccc()
      .dddddddddddddd()
      .e();
  }
}
".
Definition static_chained_method1_tree : span := (B "parser_output" 1 0 894 0 30 [(B "class_declaration" 2 0 893 0 29 [(A "class" 3 0 5 0 0 []); (B "identifier" 4 6 7 0 0 [] # "name"); (B "class_body" 5 8 893 0 29 [(A "{" 6 8 9 0 0 []); (B "block" 7 12 891 1 28 [(A "{" 8 12 13 1 1 []); (B "expression_statement" 9 18 126 2 2 [(B "method_invocation" 10 18 125 2 2 [(B "method_invocation" 11 18 105 2 2 [(B "method_invocation" 12 18 88 2 2 [(B "identifier" 13 18 75 2 2 [] # "object"); (A "." 14 76 77 2 2 []); (B "identifier" 15 77 86 2 2 [] # "name"); (B "argument_list" 16 86 88 2 2 [(A "(" 17 86 87 2 2 []); (A ")" 18 87 88 2 2 [])] # "arguments")] # "object"); (A "." 19 89 90 2 2 []); (B "identifier" 20 90 103 2 2 [] # "name"); (B "argument_list" 21 103 105 2 2 [(A "(" 22 103 104 2 2 []); (A ")" 23 104 105 2 2 [])] # "arguments")] # "object"); (A "." 24 106 107 2 2 []); (B "identifier" 25 107 123 2 2 [] # "name"); (B "argument_list" 26 123 125 2 2 [(A "(" 27 123 124 2 2 []); (A ")" 28 124 125 2 2 [])] # "arguments")]); (A ";" 29 125 126 2 2 [])]); (B "expression_statement" 30 132 150 4 4 [(B "method_invocation" 31 132 149 4 4 [(B "method_invocation" 32 132 145 4 4 [(B "method_invocation" 33 132 141 4 4 [(B "method_invocation" 34 132 137 4 4 [(B "identifier" 35 132 133 4 4 [] # "object"); (A "." 36 133 134 4 4 []); (B "identifier" 37 134 135 4 4 [] # "name"); (B "argument_list" 38 135 137 4 4 [(A "(" 39 135 136 4 4 []); (A ")" 40 136 137 4 4 [])] # "arguments")] # "object"); (A "." 41 137 138 4 4 []); (B "identifier" 42 138 139 4 4 [] # "name"); (B "argument_list" 43 139 141 4 4 [(A "(" 44 139 140 4 4 []); (A ")" 45 140 141 4 4 [])] # "arguments")] # "object"); (A "." 46 141 142 4 4 []); (B "identifier" 47 142 143 4 4 [] # "name"); (B "argument_list" 48 143 145 4 4 [(A "(" 49 143 144 4 4 []); (A ")" 50 144 145 4 4 [])] # "arguments")] # "object"); (A "." 51 145 146 4 4 []); (B "identifier" 52 146 147 4 4 [] # "name"); (B "argument_list" 53 147 149 4 4 [(A "(" 54 147 148 4 4 []); (A ")" 55 148 149 4 4 [])] # "arguments")]); (A ";" 56 149 150 4 4 [])]); (B "return_statement" 57 156 243 6 6 [(A "return" 58 156 162 6 6 []); (B "method_invocation" 59 163 242 6 6 [(B "method_invocation" 60 163 227 6 6 [(B "field_access" 61 163 187 6 6 [(B "identifier" 62 163 172 6 6 [] # "object"); (A "." 63 173 174 6 6 []); (B "identifier" 64 174 187 6 6 [] # "field")] # "object"); (A "." 65 188 189 6 6 []); (B "identifier" 66 189 202 6 6 [] # "name"); (B "argument_list" 67 202 227 6 6 [(A "(" 68 202 203 6 6 []); (B "field_access" 69 203 226 6 6 [(B "identifier" 70 203 210 6 6 [] # "object"); (A "." 71 210 211 6 6 []); (B "identifier" 72 211 226 6 6 [] # "field")]); (A ")" 73 226 227 6 6 [])] # "arguments")] # "object"); (A "." 74 228 229 6 6 []); (B "identifier" 75 229 240 6 6 [] # "name"); (B "argument_list" 76 240 242 6 6 [(A "(" 77 240 241 6 6 []); (A ")" 78 241 242 6 6 [])] # "arguments")]); (A ";" 79 242 243 6 6 [])]); (B "local_variable_declaration" 80 249 345 8 9 [(B "type_identifier" 81 249 255 8 8 [] # "type"); (B "variable_declarator" 82 256 344 8 9 [(B "identifier" 83 256 266 8 8 [] # "name"); (B "assignment_operator" 84 267 268 8 8 [(A "=" 85 267 268 8 8 [])]); (B "method_invocation" 86 275 344 9 9 [(B "method_invocation" 87 275 326 9 9 [(B "method_invocation" 88 275 306 9 9 [(B "super" 89 275 280 9 9 [] # "object"); (A "." 90 280 281 9 9 []); (B "identifier" 91 281 291 9 9 [] # "name"); (B "argument_list" 92 291 306 9 9 [(A "(" 93 291 292 9 9 []); (B "string_literal" 94 292 305 9 9 []); (A ")" 95 305 306 9 9 [])] # "arguments")] # "object"); (A "." 96 306 307 9 9 []); (B "identifier" 97 307 324 9 9 [] # "name"); (B "argument_list" 98 324 326 9 9 [(A "(" 99 324 325 9 9 []); (A ")" 100 325 326 9 9 [])] # "arguments")] # "object"); (A "." 101 326 327 9 9 []); (B "identifier" 102 327 342 9 9 [] # "name"); (B "argument_list" 103 342 344 9 9 [(A "(" 104 342 343 9 9 []); (A ")" 105 343 344 9 9 [])] # "arguments")] # "value")] # "declarator"); (A ";" 106 344 345 9 9 [])]); (B "local_variable_declaration" 107 351 445 11 11 [(B "type_identifier" 108 351 357 11 11 [] # "type"); (B "variable_declarator" 109 358 444 11 11 [(B "identifier" 110 358 368 11 11 [] # "name"); (B "assignment_operator" 111 369 370 11 11 [(A "=" 112 369 370 11 11 [])]); (B "field_access" 113 371 444 11 11 [(B "field_access" 114 371 417 11 11 [(B "field_access" 115 371 393 11 11 [(B "super" 116 371 376 11 11 [] # "object"); (A "." 117 376 377 11 11 []); (B "identifier" 118 377 393 11 11 [] # "field")] # "object"); (A "." 119 393 394 11 11 []); (B "identifier" 120 394 417 11 11 [] # "field")] # "object"); (A "." 121 417 418 11 11 []); (B "identifier" 122 418 444 11 11 [] # "field")] # "value")] # "declarator"); (A ";" 123 444 445 11 11 [])]); (B "local_variable_declaration" 124 451 552 13 14 [(B "type_identifier" 125 451 457 13 13 [] # "type"); (B "variable_declarator" 126 458 551 13 14 [(B "identifier" 127 458 468 13 13 [] # "name"); (B "assignment_operator" 128 469 470 13 13 [(A "=" 129 469 470 13 13 [])]); (B "field_access" 130 477 551 14 14 [(B "field_access" 131 477 523 14 14 [(B "field_access" 132 477 499 14 14 [(B "super" 133 477 482 14 14 [] # "object"); (A "." 134 482 483 14 14 []); (B "identifier" 135 483 499 14 14 [] # "field")] # "object"); (A "." 136 499 500 14 14 []); (B "identifier" 137 500 523 14 14 [] # "field")] # "object"); (A "." 138 523 524 14 14 []); (B "identifier" 139 524 551 14 14 [] # "field")] # "value")] # "declarator"); (A ";" 140 551 552 14 14 [])]); (B "local_variable_declaration" 141 558 707 16 21 [(B "type_identifier" 142 558 564 16 16 [] # "type"); (B "variable_declarator" 143 565 706 16 21 [(B "identifier" 144 565 575 16 16 [] # "name"); (B "assignment_operator" 145 576 577 16 16 [(A "=" 146 576 577 16 16 [])]); (B "method_invocation" 147 584 706 17 21 [(B "method_invocation" 148 584 679 17 20 [(B "method_invocation" 149 584 650 17 19 [(B "field_access" 150 584 615 17 18 [(B "super" 151 584 589 17 17 [] # "object"); (A "." 152 598 599 18 18 []); (B "identifier" 153 599 615 18 18 [] # "field")] # "object"); (A "." 154 624 625 19 19 []); (B "identifier" 155 625 635 19 19 [] # "name"); (B "argument_list" 156 635 650 19 19 [(A "(" 157 635 636 19 19 []); (B "string_literal" 158 636 649 19 19 []); (A ")" 159 649 650 19 19 [])] # "arguments")] # "object"); (A "." 160 659 660 20 20 []); (B "identifier" 161 660 677 20 20 [] # "name"); (B "argument_list" 162 677 679 20 20 [(A "(" 163 677 678 20 20 []); (A ")" 164 678 679 20 20 [])] # "arguments")] # "object"); (A "." 165 688 689 21 21 []); (B "identifier" 166 689 704 21 21 [] # "name"); (B "argument_list" 167 704 706 21 21 [(A "(" 168 704 705 21 21 []); (A ")" 169 705 706 21 21 [])] # "arguments")] # "value")] # "declarator"); (A ";" 170 706 707 21 21 [])]); (B "expression_statement" 171 713 887 23 27 [(B "method_invocation" 172 713 886 23 27 [(B "method_invocation" 173 713 875 23 26 [(B "method_invocation" 174 713 851 23 25 [(B "array_access" 175 713 793 23 24 [(B "field_access" 176 713 790 23 24 [(B "identifier" 177 713 738 23 23 [] # "object"); (A "." 178 745 746 24 24 []); (B "identifier" 179 746 790 24 24 [] # "field")] # "array"); (A "[" 180 790 791 24 24 []); (B "int" 181 791 792 24 24 [] # "index"); (A "]" 182 792 793 24 24 [])] # "object"); (A "." 183 800 801 25 25 []); (B "identifier" 184 801 849 25 25 [] # "name"); (B "argument_list" 185 849 851 25 25 [(A "(" 186 849 850 25 25 []); (A ")" 187 850 851 25 25 [])] # "arguments")] # "object"); (A "." 188 858 859 26 26 []); (B "identifier" 189 859 873 26 26 [] # "name"); (B "argument_list" 190 873 875 26 26 [(A "(" 191 873 874 26 26 []); (A ")" 192 874 875 26 26 [])] # "arguments")] # "object"); (A "." 193 882 883 27 27 []); (B "identifier" 194 883 884 27 27 [] # "name"); (B "argument_list" 195 884 886 27 27 [(A "(" 196 884 885 27 27 []); (A ")" 197 885 886 27 27 [])] # "arguments")]); (A ";" 198 886 887 27 27 [])]); (A "}" 199 890 891 28 28 [])]); (A "}" 200 892 893 29 29 [])] # "body")])]).
Example static_chained_method1 : as_expected static_chained_method1_source static_chained_method1_tree (U "class A {
  {
    superDuperVeryInsanelyLongVariableNameThatWillSurelyBreak
      .getOneSet()
      .getAnotherSet()
      .getYetAnotherSet();

    t.a().b().c().d();

    return generator
      .objectBuilder
      .setExternalId(account.personContactId)
      .getInstance();

    String longResult =
      super.callMethod('first param').callAnotherMethod().getStringResult();

    String longResult =
      super.longPropertyName.anotherLongPropertyName.yetAnotherLongPropertyName;

    String longResult =
      super
        .longPropertyName
        .anotherLongPropertyName
        .yetAnotherLongPropertyName1;

    String longResult =
      super
        .longPropertyName
        .callMethod('first param')
        .callAnotherMethod()
        .getStringResult();

    aaaaaaaaaaaaaaaaaaaaaaaaa
      .bbbbbbbbbbbbbbbbbbbbbbbbbbbbbbbbbbbbbbbbbbbb[0]
      .cccccccccccccccccccccccccccccccccccccccccccccccc()
      .dddddddddddddd()
      .e();
  }
}
").
Proof. apply run_test_ok. vm_compute. reflexivity. Qed.

(* tests/static/chaining_and_method_arguments2.in *)
Definition static_chaining_and_method_arguments2_source : ustr := U "class A {
  {
    t.a(
        k(
          '1111111111111111111111111111111111111111111111111111111111111111111111111111'
        )
      ) ;

    a(
      b(
        '1111111111111111111111111111111111111111111111111111111111111111111111111111'
      ),     t.a().b().c().d(),
          superDuperVeryInsanelyLongVariableNameThatWillSurelyBreak.getOneSet()
      .getAnotherSet()
      .getYetAnotherSet()

    );

    b(
      '1111111111111111111111111111111111111111111111111111111111111111111111111111'
    );

    superDuperVeryInsanelyLongVariableNameThatWillSurelyBreak.getOneSet()
      .getAnotherSet()
      .getYetAnotherSet();
    t.a().b().c().d();

    superDuperVeryInsanelyLongVariableNameThatWillSurelyBreak.getOne(
    aaaaaaaaaaaaaaaaaaaaaaaaaaaaaaaaaaaaaaaaaaaaaaa, bbbbbbbbbbbbbbbbbbbbb
    );

    superDuperVeryInsanelyLongVariableNameThatWillSurelyBreak.getOne()
    .getTwo(aaaaaaaaaaaaaaaaaaaaaaaaaaaaaaaaaaaaaaaaaaaaaaa, bbbbbbbbbbbbbbbbbbbbb);
  }
}

".
Definition static_chaining_and_method_arguments2_tree : span := (B "parser_output" 1 0 981 0 36 [(B "class_declaration" 2 0 979 0 34 [(A "class" 3 0 5 0 0 []); (B "identifier" 4 6 7 0 0 [] # "name"); (B "class_body" 5 8 979 0 34 [(A "{" 6 8 9 0 0 []); (B "block" 7 12 977 1 33 [(A "{" 8 12 13 1 1 []); (B "expression_statement" 9 18 142 2 6 [(B "method_invocation" 10 18 140 2 6 [(B "identifier" 11 18 19 2 2 [] # "object"); (A "." 12 19 20 2 2 []); (B "identifier" 13 20 21 2 2 [] # "name"); (B "argument_list" 14 21 140 2 6 [(A "(" 15 21 22 2 2 []); (B "method_invocation" 16 31 132 3 5 [(B "identifier" 17 31 32 3 3 [] # "name"); (B "argument_list" 18 32 132 3 5 [(A "(" 19 32 33 3 3 []); (B "string_literal" 20 44 122 4 4 []); (A ")" 21 131 132 5 5 [])] # "arguments")]); (A ")" 22 139 140 6 6 [])] # "arguments")]); (A ";" 23 141 142 6 6 [])]); (B "expression_statement" 24 148 415 8 16 [(B "method_invocation" 25 148 414 8 16 [(B "identifier" 26 148 149 8 8 [] # "name"); (B "argument_list" 27 149 414 8 16 [(A "(" 28 149 150 8 8 []); (B "method_invocation" 29 157 254 9 11 [(B "identifier" 30 157 158 9 9 [] # "name"); (B "argument_list" 31 158 254 9 11 [(A "(" 32 158 159 9 9 []); (B "string_literal" 33 168 246 10 10 []); (A ")" 34 253 254 11 11 [])] # "arguments")]); (A "," 35 254 255 11 11 []); (B "method_invocation" 36 260 277 11 11 [(B "method_invocation" 37 260 273 11 11 [(B "method_invocation" 38 260 269 11 11 [(B "method_invocation" 39 260 265 11 11 [(B "identifier" 40 260 261 11 11 [] # "object"); (A "." 41 261 262 11 11 []); (B "identifier" 42 262 263 11 11 [] # "name"); (B "argument_list" 43 263 265 11 11 [(A "(" 44 263 264 11 11 []); (A ")" 45 264 265 11 11 [])] # "arguments")] # "object"); (A "." 46 265 266 11 11 []); (B "identifier" 47 266 267 11 11 [] # "name"); (B "argument_list" 48 267 269 11 11 [(A "(" 49 267 268 11 11 []); (A ")" 50 268 269 11 11 [])] # "arguments")] # "object"); (A "." 51 269 270 11 11 []); (B "identifier" 52 270 271 11 11 [] # "name"); (B "argument_list" 53 271 273 11 11 [(A "(" 54 271 272 11 11 []); (A ")" 55 272 273 11 11 [])] # "arguments")] # "object"); (A "." 56 273 274 11 11 []); (B "identifier" 57 274 275 11 11 [] # "name"); (B "argument_list" 58 275 277 11 11 [(A "(" 59 275 276 11 11 []); (A ")" 60 276 277 11 11 [])] # "arguments")]); (A "," 61 277 278 11 11 []); (B "method_invocation" 62 289 407 12 14 [(B "method_invocation" 63 289 381 12 13 [(B "method_invocation" 64 289 358 12 12 [(B "identifier" 65 289 346 12 12 [] # "object"); (A "." 66 346 347 12 12 []); (B "identifier" 67 347 356 12 12 [] # "name"); (B "argument_list" 68 356 358 12 12 [(A "(" 69 356 357 12 12 []); (A ")" 70 357 358 12 12 [])] # "arguments")] # "object"); (A "." 71 365 366 13 13 []); (B "identifier" 72 366 379 13 13 [] # "name"); (B "argument_list" 73 379 381 13 13 [(A "(" 74 379 380 13 13 []); (A ")" 75 380 381 13 13 [])] # "arguments")] # "object"); (A "." 76 388 389 14 14 []); (B "identifier" 77 389 405 14 14 [] # "name"); (B "argument_list" 78 405 407 14 14 [(A "(" 79 405 406 14 14 []); (A ")" 80 406 407 14 14 [])] # "arguments")]); (A ")" 81 413 414 16 16 [])] # "arguments")]); (A ";" 82 414 415 16 16 [])]); (B "expression_statement" 83 421 515 18 20 [(B "method_invocation" 84 421 514 18 20 [(B "identifier" 85 421 422 18 18 [] # "name"); (B "argument_list" 86 422 514 18 20 [(A "(" 87 422 423 18 18 []); (B "string_literal" 88 430 508 19 19 []); (A ")" 89 513 514 20 20 [])] # "arguments")]); (A ";" 90 514 515 20 20 [])]); (B "expression_statement" 91 521 640 22 24 [(B "method_invocation" 92 521 639 22 24 [(B "method_invocation" 93 521 613 22 23 [(B "method_invocation" 94 521 590 22 22 [(B "identifier" 95 521 578 22 22 [] # "object"); (A "." 96 578 579 22 22 []); (B "identifier" 97 579 588 22 22 [] # "name"); (B "argument_list" 98 588 590 22 22 [(A "(" 99 588 589 22 22 []); (A ")" 100 589 590 22 22 [])] # "arguments")] # "object"); (A "." 101 597 598 23 23 []); (B "identifier" 102 598 611 23 23 [] # "name"); (B "argument_list" 103 611 613 23 23 [(A "(" 104 611 612 23 23 []); (A ")" 105 612 613 23 23 [])] # "arguments")] # "object"); (A "." 106 620 621 24 24 []); (B "identifier" 107 621 637 24 24 [] # "name"); (B "argument_list" 108 637 639 24 24 [(A "(" 109 637 638 24 24 []); (A ")" 110 638 639 24 24 [])] # "arguments")]); (A ";" 111 639 640 24 24 [])]); (B "expression_statement" 112 645 663 25 25 [(B "method_invocation" 113 645 662 25 25 [(B "method_invocation" 114 645 658 25 25 [(B "method_invocation" 115 645 654 25 25 [(B "method_invocation" 116 645 650 25 25 [(B "identifier" 117 645 646 25 25 [] # "object"); (A "." 118 646 647 25 25 []); (B "identifier" 119 647 648 25 25 [] # "name"); (B "argument_list" 120 648 650 25 25 [(A "(" 121 648 649 25 25 []); (A ")" 122 649 650 25 25 [])] # "arguments")] # "object"); (A "." 123 650 651 25 25 []); (B "identifier" 124 651 652 25 25 [] # "name"); (B "argument_list" 125 652 654 25 25 [(A "(" 126 652 653 25 25 []); (A ")" 127 653 654 25 25 [])] # "arguments")] # "object"); (A "." 128 654 655 25 25 []); (B "identifier" 129 655 656 25 25 [] # "name"); (B "argument_list" 130 656 658 25 25 [(A "(" 131 656 657 25 25 []); (A ")" 132 657 658 25 25 [])] # "arguments")] # "object"); (A "." 133 658 659 25 25 []); (B "identifier" 134 659 660 25 25 [] # "name"); (B "argument_list" 135 660 662 25 25 [(A "(" 136 660 661 25 25 []); (A ")" 137 661 662 25 25 [])] # "arguments")]); (A ";" 138 662 663 25 25 [])]); (B "expression_statement" 139 669 816 27 29 [(B "method_invocation" 140 669 815 27 29 [(B "identifier" 141 669 726 27 27 [] # "object"); (A "." 142 726 727 27 27 []); (B "identifier" 143 727 733 27 27 [] # "name"); (B "argument_list" 144 733 815 27 29 [(A "(" 145 733 734 27 27 []); (B "identifier" 146 739 786 28 28 []); (A "," 147 786 787 28 28 []); (B "identifier" 148 788 809 28 28 []); (A ")" 149 814 815 29 29 [])] # "arguments")]); (A ";" 150 815 816 29 29 [])]); (B "expression_statement" 151 822 973 31 32 [(B "method_invocation" 152 822 972 31 32 [(B "method_invocation" 153 822 888 31 31 [(B "identifier" 154 822 879 31 31 [] # "object"); (A "." 155 879 880 31 31 []); (B "identifier" 156 880 886 31 31 [] # "name"); (B "argument_list" 157 886 888 31 31 [(A "(" 158 886 887 31 31 []); (A ")" 159 887 888 31 31 [])] # "arguments")] # "object"); (A "." 160 893 894 32 32 []); (B "identifier" 161 894 900 32 32 [] # "name"); (B "argument_list" 162 900 972 32 32 [(A "(" 163 900 901 32 32 []); (B "identifier" 164 901 948 32 32 []); (A "," 165 948 949 32 32 []); (B "identifier" 166 950 971 32 32 []); (A ")" 167 971 972 32 32 [])] # "arguments")]); (A ";" 168 972 973 32 32 [])]); (A "}" 169 976 977 33 33 [])]); (A "}" 170 978 979 34 34 [])] # "body")])]).
Example static_chaining_and_method_arguments2 : as_expected static_chaining_and_method_arguments2_source static_chaining_and_method_arguments2_tree (U "class A {
  {
    t.a(
      k(
        '1111111111111111111111111111111111111111111111111111111111111111111111111111'
      )
    );

    a(
      b(
        '1111111111111111111111111111111111111111111111111111111111111111111111111111'
      ),
      t.a().b().c().d(),
      superDuperVeryInsanelyLongVariableNameThatWillSurelyBreak
        .getOneSet()
        .getAnotherSet()
        .getYetAnotherSet()
    );

    b(
      '1111111111111111111111111111111111111111111111111111111111111111111111111111'
    );

    superDuperVeryInsanelyLongVariableNameThatWillSurelyBreak
      .getOneSet()
      .getAnotherSet()
      .getYetAnotherSet();
    t.a().b().c().d();

    superDuperVeryInsanelyLongVariableNameThatWillSurelyBreak.getOne(
      aaaaaaaaaaaaaaaaaaaaaaaaaaaaaaaaaaaaaaaaaaaaaaa,
      bbbbbbbbbbbbbbbbbbbbb
    );

    superDuperVeryInsanelyLongVariableNameThatWillSurelyBreak
      .getOne()
      .getTwo(
        aaaaaaaaaaaaaaaaaaaaaaaaaaaaaaaaaaaaaaaaaaaaaaa,
        bbbbbbbbbbbbbbbbbbbbb
      );
  }
}
").
Proof. apply run_test_ok. vm_compute. reflexivity. Qed.

(* tests/static/chaining_method_in_switch.in *)
Definition static_chaining_method_in_switch_source : ustr := U "Class A{
  {
    switch on SwitchCaseGenerator.setType('Switch Type').setMessage('The Most Important Message').setSeverity('High').getInstance() {
      when 1 {
        System.debug('1');
      }
      when else {
        System.debug('Else');
      }
    }
  }
}
".
Definition static_chaining_method_in_switch_tree : span := (B "parser_output" 1 0 265 0 12 [(B "class_declaration" 2 0 264 0 11 [(A "class" 3 0 5 0 0 []); (B "identifier" 4 6 7 0 0 [] # "name"); (B "class_body" 5 7 264 0 11 [(A "{" 6 7 8 0 0 []); (B "block" 7 11 262 1 10 [(A "{" 8 11 12 1 1 []); (B "switch_expression" 9 17 258 2 9 [(A "switch" 10 17 23 2 2 []); (A "on" 11 24 26 2 2 []); (B "method_invocation" 12 27 144 2 2 [(B "method_invocation" 13 27 130 2 2 [(B "method_invocation" 14 27 110 2 2 [(B "method_invocation" 15 27 69 2 2 [(B "identifier" 16 27 46 2 2 [] # "object"); (A "." 17 46 47 2 2 []); (B "identifier" 18 47 54 2 2 [] # "name"); (B "argument_list" 19 54 69 2 2 [(A "(" 20 54 55 2 2 []); (B "string_literal" 21 55 68 2 2 []); (A ")" 22 68 69 2 2 [])] # "arguments")] # "object"); (A "." 23 69 70 2 2 []); (B "identifier" 24 70 80 2 2 [] # "name"); (B "argument_list" 25 80 110 2 2 [(A "(" 26 80 81 2 2 []); (B "string_literal" 27 81 109 2 2 []); (A ")" 28 109 110 2 2 [])] # "arguments")] # "object"); (A "." 29 110 111 2 2 []); (B "identifier" 30 111 122 2 2 [] # "name"); (B "argument_list" 31 122 130 2 2 [(A "(" 32 122 123 2 2 []); (B "string_literal" 33 123 129 2 2 []); (A ")" 34 129 130 2 2 [])] # "arguments")] # "object"); (A "." 35 130 131 2 2 []); (B "identifier" 36 131 142 2 2 [] # "name"); (B "argument_list" 37 142 144 2 2 [(A "(" 38 142 143 2 2 []); (A ")" 39 143 144 2 2 [])] # "arguments")] # "condition"); (B "switch_block" 40 145 258 2 9 [(A "{" 41 145 146 2 2 []); (B "switch_rule" 42 153 196 3 5 [(B "switch_label" 43 153 159 3 3 [(A "when" 44 153 157 3 3 []); (B "int" 45 158 159 3 3 [])]); (B "block" 46 160 196 3 5 [(A "{" 47 160 161 3 3 []); (B "expression_statement" 48 170 188 4 4 [(B "method_invocation" 49 170 187 4 4 [(B "identifier" 50 170 176 4 4 [] # "object"); (A "." 51 176 177 4 4 []); (B "identifier" 52 177 182 4 4 [] # "name"); (B "argument_list" 53 182 187 4 4 [(A "(" 54 182 183 4 4 []); (B "string_literal" 55 183 186 4 4 []); (A ")" 56 186 187 4 4 [])] # "arguments")]); (A ";" 57 187 188 4 4 [])]); (A "}" 58 195 196 5 5 [])])]); (B "switch_rule" 59 203 252 6 8 [(B "switch_label" 60 203 212 6 6 [(A "when" 61 203 207 6 6 []); (A "else" 62 208 212 6 6 [])]); (B "block" 63 213 252 6 8 [(A "{" 64 213 214 6 6 []); (B "expression_statement" 65 223 244 7 7 [(B "method_invocation" 66 223 243 7 7 [(B "identifier" 67 223 229 7 7 [] # "object"); (A "." 68 229 230 7 7 []); (B "identifier" 69 230 235 7 7 [] # "name"); (B "argument_list" 70 235 243 7 7 [(A "(" 71 235 236 7 7 []); (B "string_literal" 72 236 242 7 7 []); (A ")" 73 242 243 7 7 [])] # "arguments")]); (A ";" 74 243 244 7 7 [])]); (A "}" 75 251 252 8 8 [])])]); (A "}" 76 257 258 9 9 [])] # "body")]); (A "}" 77 261 262 10 10 [])]); (A "}" 78 263 264 11 11 [])] # "body")])]).
Example static_chaining_method_in_switch : as_expected static_chaining_method_in_switch_source static_chaining_method_in_switch_tree (U "class A {
  {
    switch on
      SwitchCaseGenerator
        .setType('Switch Type')
        .setMessage('The Most Important Message')
        .setSeverity('High')
        .getInstance() {
      when 1 {
        System.debug('1');
      }
      when else {
        System.debug('Else');
      }
    }
  }
}
").
Proof. apply run_test_ok. vm_compute. reflexivity. Qed.

(* tests/static/class_declaration_wrap.in *)
Definition static_class_declaration_wrap_source : ustr := U "public class TestSObjectDisableBehaviourConstructor implements fflib_SObjectDomain.IConstructable {
}
public virtual inherited sharing class TriggerActionFlow implements TriggerAction.BeforeInsert, TriggerAction.AfterInsert, TriggerAction.BeforeUpdate, TriggerAction.AfterUpdate, TriggerAction.BeforeDelete, TriggerAction.AfterDelete, TriggerAction.AfterUndelete {
}
public virtual class fflib_ClassicUnitOfWorkFactory extends fflib_Application.UnitOfWorkFactory implements fflib_IUnitOfWorkFactory {
}
".
Definition static_class_declaration_wrap_tree : span := (B "parser_output" 1 0 503 0 6 [(B "class_declaration" 2 0 101 0 1 [(B "modifiers" 3 0 6 0 0 [(B "modifier" 4 0 6 0 0 [(B "public" 5 0 6 0 0 [(A "public" 6 0 6 0 0 [])])])]); (A "class" 7 7 12 0 0 []); (B "identifier" 8 13 51 0 0 [] # "name"); (B "interfaces" 9 52 97 0 0 [(A "implements" 10 52 62 0 0 []); (B "type_list" 11 63 97 0 0 [(B "scoped_type_identifier" 12 63 97 0 0 [(B "type_identifier" 13 63 82 0 0 []); (A "." 14 82 83 0 0 []); (B "type_identifier" 15 83 97 0 0 [])])])]); (B "class_body" 16 98 101 0 1 [(A "{" 17 98 99 0 0 []); (A "}" 18 100 101 1 1 [])] # "body")]); (B "class_declaration" 19 102 366 2 3 [(B "modifiers" 20 102 134 2 2 [(B "modifier" 21 102 108 2 2 [(B "public" 22 102 108 2 2 [(A "public" 23 102 108 2 2 [])])]); (B "modifier" 24 109 116 2 2 [(B "virtual" 25 109 116 2 2 [(A "virtual" 26 109 116 2 2 [])])]); (B "modifier" 27 117 134 2 2 [(B "inherited_sharing" 28 117 134 2 2 [(A "inherited" 29 117 126 2 2 []); (A "sharing" 30 127 134 2 2 [])])])]); (A "class" 31 135 140 2 2 []); (B "identifier" 32 141 158 2 2 [] # "name"); (B "interfaces" 33 159 362 2 2 [(A "implements" 34 159 169 2 2 []); (B "type_list" 35 170 362 2 2 [(B "scoped_type_identifier" 36 170 196 2 2 [(B "type_identifier" 37 170 183 2 2 []); (A "." 38 183 184 2 2 []); (B "type_identifier" 39 184 196 2 2 [])]); (A "," 40 196 197 2 2 []); (B "scoped_type_identifier" 41 198 223 2 2 [(B "type_identifier" 42 198 211 2 2 []); (A "." 43 211 212 2 2 []); (B "type_identifier" 44 212 223 2 2 [])]); (A "," 45 223 224 2 2 []); (B "scoped_type_identifier" 46 225 251 2 2 [(B "type_identifier" 47 225 238 2 2 []); (A "." 48 238 239 2 2 []); (B "type_identifier" 49 239 251 2 2 [])]); (A "," 50 251 252 2 2 []); (B "scoped_type_identifier" 51 253 278 2 2 [(B "type_identifier" 52 253 266 2 2 []); (A "." 53 266 267 2 2 []); (B "type_identifier" 54 267 278 2 2 [])]); (A "," 55 278 279 2 2 []); (B "scoped_type_identifier" 56 280 306 2 2 [(B "type_identifier" 57 280 293 2 2 []); (A "." 58 293 294 2 2 []); (B "type_identifier" 59 294 306 2 2 [])]); (A "," 60 306 307 2 2 []); (B "scoped_type_identifier" 61 308 333 2 2 [(B "type_identifier" 62 308 321 2 2 []); (A "." 63 321 322 2 2 []); (B "type_identifier" 64 322 333 2 2 [])]); (A "," 65 333 334 2 2 []); (B "scoped_type_identifier" 66 335 362 2 2 [(B "type_identifier" 67 335 348 2 2 []); (A "." 68 348 349 2 2 []); (B "type_identifier" 69 349 362 2 2 [])])])]); (B "class_body" 70 363 366 2 3 [(A "{" 71 363 364 2 2 []); (A "}" 72 365 366 3 3 [])] # "body")]); (B "class_declaration" 73 367 502 4 5 [(B "modifiers" 74 367 381 4 4 [(B "modifier" 75 367 373 4 4 [(B "public" 76 367 373 4 4 [(A "public" 77 367 373 4 4 [])])]); (B "modifier" 78 374 381 4 4 [(B "virtual" 79 374 381 4 4 [(A "virtual" 80 374 381 4 4 [])])])]); (A "class" 81 382 387 4 4 []); (B "identifier" 82 388 418 4 4 [] # "name"); (B "superclass" 83 419 462 4 4 [(A "extends" 84 419 426 4 4 []); (B "scoped_type_identifier" 85 427 462 4 4 [(B "type_identifier" 86 427 444 4 4 []); (A "." 87 444 445 4 4 []); (B "type_identifier" 88 445 462 4 4 [])])]); (B "interfaces" 89 463 498 4 4 [(A "implements" 90 463 473 4 4 []); (B "type_list" 91 474 498 4 4 [(B "type_identifier" 92 474 498 4 4 [])])]); (B "class_body" 93 499 502 4 5 [(A "{" 94 499 500 4 4 []); (A "}" 95 501 502 5 5 [])] # "body")])]).
Example static_class_declaration_wrap : as_expected static_class_declaration_wrap_source static_class_declaration_wrap_tree (U "public class TestSObjectDisableBehaviourConstructor
  implements fflib_SObjectDomain.IConstructable {
}
public virtual inherited sharing class TriggerActionFlow
  implements TriggerAction.BeforeInsert, TriggerAction.AfterInsert, TriggerAction.BeforeUpdate, TriggerAction.AfterUpdate, TriggerAction.BeforeDelete, TriggerAction.AfterDelete, TriggerAction.AfterUndelete {
}
public virtual class fflib_ClassicUnitOfWorkFactory
  extends fflib_Application.UnitOfWorkFactory implements fflib_IUnitOfWorkFactory {
}
").
Proof. apply run_test_ok. vm_compute. reflexivity. Qed.

(* tests/static/field_access.in *)
Definition static_field_access_source : ustr := U "public class Me {
    void dottedExprMethod() {
    a .       Field__c 
    = 
    null;
    a.    Field__c = null;
  }
}
  
".
Definition static_field_access_tree : span := (B "parser_output" 1 0 125 0 9 [(B "class_declaration" 2 0 121 0 7 [(B "modifiers" 3 0 6 0 0 [(B "modifier" 4 0 6 0 0 [(B "public" 5 0 6 0 0 [(A "public" 6 0 6 0 0 [])])])]); (A "class" 7 7 12 0 0 []); (B "identifier" 8 13 15 0 0 [] # "name"); (B "class_body" 9 16 121 0 7 [(A "{" 10 16 17 0 0 []); (B "method_declaration" 11 22 119 1 6 [(B "void_type" 12 22 26 1 1 [] # "type"); (B "identifier" 13 27 43 1 1 [] # "name"); (B "formal_parameters" 14 43 45 1 1 [(A "(" 15 43 44 1 1 []); (A ")" 16 44 45 1 1 [])] # "parameters"); (B "block" 17 46 119 1 6 [(A "{" 18 46 47 1 1 []); (B "expression_statement" 19 52 88 2 4 [(B "assignment_expression" 20 52 87 2 4 [(B "field_access" 21 52 70 2 2 [(B "identifier" 22 52 53 2 2 [] # "object"); (A "." 23 54 55 2 2 []); (B "identifier" 24 62 70 2 2 [] # "field")] # "left"); (B "assignment_operator" 25 76 77 3 3 [(A "=" 26 76 77 3 3 [])] # "operator"); (B "null_literal" 27 83 87 4 4 [] # "right")]); (A ";" 28 87 88 4 4 [])]); (B "expression_statement" 29 93 115 5 5 [(B "assignment_expression" 30 93 114 5 5 [(B "field_access" 31 93 107 5 5 [(B "identifier" 32 93 94 5 5 [] # "object"); (A "." 33 94 95 5 5 []); (B "identifier" 34 99 107 5 5 [] # "field")] # "left"); (B "assignment_operator" 35 108 109 5 5 [(A "=" 36 108 109 5 5 [])] # "operator"); (B "null_literal" 37 110 114 5 5 [] # "right")]); (A ";" 38 114 115 5 5 [])]); (A "}" 39 118 119 6 6 [])] # "body")]); (A "}" 40 120 121 7 7 [])] # "body")])]).
Example static_field_access : as_expected static_field_access_source static_field_access_tree (U "public class Me {
  void dottedExprMethod() {
    a.Field__c = null;
    a.Field__c = null;
  }
}
").
Proof. apply run_test_ok. vm_compute. reflexivity. Qed.

(* tests/static/field_declaration_double_indent.in *)
Definition static_field_declaration_double_indent_source : ustr := U "public class double_indent_challenge {
    public String[] result_type_info =
            new List<String>{
                'result',
                'http://soap.sforce.com/2006/04/metadata',
                null,
                '0',
                '-1',
                'false'
            };
}
".
Definition static_field_declaration_double_indent_tree : span := (B "parser_output" 1 0 299 0 11 [(B "class_declaration" 2 0 298 0 10 [(B "modifiers" 3 0 6 0 0 [(B "modifier" 4 0 6 0 0 [(B "public" 5 0 6 0 0 [(A "public" 6 0 6 0 0 [])])])]); (A "class" 7 7 12 0 0 []); (B "identifier" 8 13 36 0 0 [] # "name"); (B "class_body" 9 37 298 0 10 [(A "{" 10 37 38 0 0 []); (B "field_declaration" 11 43 296 1 9 [(B "modifiers" 12 43 49 1 1 [(B "modifier" 13 43 49 1 1 [(B "public" 14 43 49 1 1 [(A "public" 15 43 49 1 1 [])])])]); (B "array_type" 16 50 58 1 1 [(B "type_identifier" 17 50 56 1 1 [] # "element"); (B "dimensions" 18 56 58 1 1 [(A "[" 19 56 57 1 1 []); (A "]" 20 57 58 1 1 [])] # "dimensions")] # "type"); (B "variable_declarator" 21 59 295 1 9 [(B "identifier" 22 59 75 1 1 [] # "name"); (B "assignment_operator" 23 76 77 1 1 [(A "=" 24 76 77 1 1 [])]); (B "array_creation_expression" 25 90 295 2 9 [(A "new" 26 90 93 2 2 []); (B "generic_type" 27 94 106 2 2 [(B "type_identifier" 28 94 98 2 2 []); (B "type_arguments" 29 98 106 2 2 [(A "<" 30 98 99 2 2 []); (B "type_identifier" 31 99 105 2 2 []); (A ">" 32 105 106 2 2 [])])] # "type"); (B "array_initializer" 33 106 295 2 9 [(A "{" 34 106 107 2 2 []); (B "string_literal" 35 124 132 3 3 []); (A "," 36 132 133 3 3 []); (B "string_literal" 37 150 191 4 4 []); (A "," 38 191 192 4 4 []); (B "null_literal" 39 209 213 5 5 []); (A "," 40 213 214 5 5 []); (B "string_literal" 41 231 234 6 6 []); (A "," 42 234 235 6 6 []); (B "string_literal" 43 252 256 7 7 []); (A "," 44 256 257 7 7 []); (B "string_literal" 45 274 281 8 8 []); (A "}" 46 294 295 9 9 [])] # "value")] # "value")] # "declarator"); (A ";" 47 295 296 9 9 [])]); (A "}" 48 297 298 10 10 [])] # "body")])]).
Example static_field_declaration_double_indent : as_expected static_field_declaration_double_indent_source static_field_declaration_double_indent_tree (U "public class double_indent_challenge {
  public String[] result_type_info =
    new List<String>{
      'result',
      'http://soap.sforce.com/2006/04/metadata',
      null,
      '0',
      '-1',
      'false'
    };
}
").
Proof. apply run_test_ok. vm_compute. reflexivity. Qed.

(* tests/static/idempotent1.in *)
Definition static_idempotent1_source : ustr := U "// fix: https://github.com/xixiaofinland/afmt/issues/97
Class TestClass {
  {
    if (true)
    // comment 1
    {}
   }
}
".
Definition static_idempotent1_tree : span := (B "parser_output" 1 0 123 0 8 [(C "line_comment" 2 0 55 0 0 []); (B "class_declaration" 3 56 122 1 7 [(A "class" 4 56 61 1 1 []); (B "identifier" 5 62 71 1 1 [] # "name"); (B "class_body" 6 72 122 1 7 [(A "{" 7 72 73 1 1 []); (B "block" 8 76 120 2 6 [(A "{" 9 76 77 2 2 []); (B "if_statement" 10 82 115 3 5 [(A "if" 11 82 84 3 3 []); (B "parenthesized_expression" 12 85 91 3 3 [(A "(" 13 85 86 3 3 []); (B "boolean" 14 86 90 3 3 [(A "true" 15 86 90 3 3 [])]); (A ")" 16 90 91 3 3 [])] # "condition"); (C "line_comment" 17 96 108 4 4 []); (B "block" 18 113 115 5 5 [(A "{" 19 113 114 5 5 []); (A "}" 20 114 115 5 5 [])] # "consequence")]); (A "}" 21 119 120 6 6 [])]); (A "}" 22 121 122 7 7 [])] # "body")])]).
Example static_idempotent1 : as_expected static_idempotent1_source static_idempotent1_tree (U "// fix: https://github.com/xixiaofinland/afmt/issues/97
class TestClass {
  {
    if (true) // comment 1
    {
    }
  }
}
").
Proof. apply run_test_ok. vm_compute. reflexivity. Qed.

(* tests/static/idempotent2.in *)
Definition static_idempotent2_source : ustr := U "// format twice result differ
class TestClass {
  {
    if(true){

    } else 
    // comment 1
    {

    }
  }
}
".
Definition static_idempotent2_tree : span := (B "parser_output" 1 0 115 0 12 [(C "line_comment" 2 0 29 0 0 []); (B "class_declaration" 3 30 114 1 11 [(A "class" 4 30 35 1 1 []); (B "identifier" 5 36 45 1 1 [] # "name"); (B "class_body" 6 46 114 1 11 [(A "{" 7 46 47 1 1 []); (B "block" 8 50 112 2 10 [(A "{" 9 50 51 2 2 []); (B "if_statement" 10 56 108 3 9 [(A "if" 11 56 58 3 3 []); (B "parenthesized_expression" 12 58 64 3 3 [(A "(" 13 58 59 3 3 []); (B "boolean" 14 59 63 3 3 [(A "true" 15 59 63 3 3 [])]); (A ")" 16 63 64 3 3 [])] # "condition"); (B "block" 17 64 72 3 5 [(A "{" 18 64 65 3 3 []); (A "}" 19 71 72 5 5 [])] # "consequence"); (A "else" 20 73 77 5 5 []); (C "line_comment" 21 83 95 6 6 []); (B "block" 22 100 108 7 9 [(A "{" 23 100 101 7 7 []); (A "}" 24 107 108 9 9 [])] # "alternative")]); (A "}" 25 111 112 10 10 [])]); (A "}" 26 113 114 11 11 [])] # "body")])]).
Example static_idempotent2 : as_expected static_idempotent2_source static_idempotent2_tree (U "// format twice result differ
class TestClass {
  {
    if (true) {
    } else // comment 1
    {
    }
  }
}
").
Proof. apply run_test_ok. vm_compute. reflexivity. Qed.

(* tests/static/if_cond_wrap1.in *)
Definition static_if_cond_wrap1_source : ustr := U "class Conditional {
  {
    if (!SObjectType.Attribute__c.fields.Name.isAccessible() && !SObjectType.Attribute__c.fields.Display_on_Actions_Tab__c.isAccessible() || !SObjectType.Attribute__c.fields.Display_Order__c.isAccessible() || !SObjectType.Attribute__c.fields.Icon__c.isAccessible() || !SObjectType.Action__c.fields.Name.isAccessible() || !SObjectType.Action__c.fields.Description__c.isAccessible() || !SObjectType.Action__c.fields.Translation_Index__c.isAccessible() || !SObjectType.Action__c.fields.State__c.isAccessible() || !SObjectType.Action__c.fields.Display_Tab__c.isAccessible() || !SObjectType.Action__c.fields.Display_Tile__c.isAccessible() || !SObjectType.Action__c.fields.Action_Type_Attribute__c.isAccessible() || !SObjectType.Action__c.fields.Tile_Type_Attribute__c.isAccessible() || !SObjectType.Action__c.fields.From_Date__c.isAccessible() || !SObjectType.Action__c.fields.To_Date__c.isAccessible() || !SObjectType.Action__c.fields.Parent__c.isAccessible() | !SObjectType.Action__c.fields.RecordTypeId.isAccessible()) {
      System.debug('true');
    }
  }
}

".
Definition static_if_cond_wrap1_tree : span := (B "parser_output" 1 0 1084 0 8 [(B "class_declaration" 2 0 1082 0 6 [(A "class" 3 0 5 0 0 []); (B "identifier" 4 6 17 0 0 [] # "name"); (B "class_body" 5 18 1082 0 6 [(A "{" 6 18 19 0 0 []); (B "block" 7 22 1080 1 5 [(A "{" 8 22 23 1 1 []); (B "if_statement" 9 28 1076 2 4 [(A "if" 10 28 30 2 2 []); (B "parenthesized_expression" 11 31 1040 2 2 [(A "(" 12 31 32 2 2 []); (B "binary_expression" 13 32 1039 2 2 [(B "binary_expression" 14 32 921 2 2 [(B "binary_expression" 15 32 862 2 2 [(B "binary_expression" 16 32 801 2 2 [(B "binary_expression" 17 32 730 2 2 [(B "binary_expression" 18 32 657 2 2 [(B "binary_expression" 19 32 593 2 2 [(B "binary_expression" 20 32 530 2 2 [(B "binary_expression" 21 32 473 2 2 [(B "binary_expression" 22 32 404 2 2 [(B "binary_expression" 23 32 341 2 2 [(B "binary_expression" 24 32 288 2 2 [(B "binary_expression" 25 32 229 2 2 [(B "binary_expression" 26 32 161 2 2 [(B "unary_expression" 27 32 84 2 2 [(A "!" 28 32 33 2 2 [] # "operator"); (B "method_invocation" 29 33 84 2 2 [(B "field_access" 30 33 69 2 2 [(B "field_access" 31 33 64 2 2 [(B "field_access" 32 33 57 2 2 [(B "identifier" 33 33 44 2 2 [] # "object"); (A "." 34 44 45 2 2 []); (B "identifier" 35 45 57 2 2 [] # "field")] # "object"); (A "." 36 57 58 2 2 []); (B "identifier" 37 58 64 2 2 [] # "field")] # "object"); (A "." 38 64 65 2 2 []); (B "identifier" 39 65 69 2 2 [] # "field")] # "object"); (A "." 40 69 70 2 2 []); (B "identifier" 41 70 82 2 2 [] # "name"); (B "argument_list" 42 82 84 2 2 [(A "(" 43 82 83 2 2 []); (A ")" 44 83 84 2 2 [])] # "arguments")] # "operand")] # "left"); (A "&&" 45 85 87 2 2 [] # "operator"); (B "unary_expression" 46 88 161 2 2 [(A "!" 47 88 89 2 2 [] # "operator"); (B "method_invocation" 48 89 161 2 2 [(B "field_access" 49 89 146 2 2 [(B "field_access" 50 89 120 2 2 [(B "field_access" 51 89 113 2 2 [(B "identifier" 52 89 100 2 2 [] # "object"); (A "." 53 100 101 2 2 []); (B "identifier" 54 101 113 2 2 [] # "field")] # "object"); (A "." 55 113 114 2 2 []); (B "identifier" 56 114 120 2 2 [] # "field")] # "object"); (A "." 57 120 121 2 2 []); (B "identifier" 58 121 146 2 2 [] # "field")] # "object"); (A "." 59 146 147 2 2 []); (B "identifier" 60 147 159 2 2 [] # "name"); (B "argument_list" 61 159 161 2 2 [(A "(" 62 159 160 2 2 []); (A ")" 63 160 161 2 2 [])] # "arguments")] # "operand")] # "right")] # "left"); (A "||" 64 162 164 2 2 [] # "operator"); (B "unary_expression" 65 165 229 2 2 [(A "!" 66 165 166 2 2 [] # "operator"); (B "method_invocation" 67 166 229 2 2 [(B "field_access" 68 166 214 2 2 [(B "field_access" 69 166 197 2 2 [(B "field_access" 70 166 190 2 2 [(B "identifier" 71 166 177 2 2 [] # "object"); (A "." 72 177 178 2 2 []); (B "identifier" 73 178 190 2 2 [] # "field")] # "object"); (A "." 74 190 191 2 2 []); (B "identifier" 75 191 197 2 2 [] # "field")] # "object"); (A "." 76 197 198 2 2 []); (B "identifier" 77 198 214 2 2 [] # "field")] # "object"); (A "." 78 214 215 2 2 []); (B "identifier" 79 215 227 2 2 [] # "name"); (B "argument_list" 80 227 229 2 2 [(A "(" 81 227 228 2 2 []); (A ")" 82 228 229 2 2 [])] # "arguments")] # "operand")] # "right")] # "left"); (A "||" 83 230 232 2 2 [] # "operator"); (B "unary_expression" 84 233 288 2 2 [(A "!" 85 233 234 2 2 [] # "operator"); (B "method_invocation" 86 234 288 2 2 [(B "field_access" 87 234 273 2 2 [(B "field_access" 88 234 265 2 2 [(B "field_access" 89 234 258 2 2 [(B "identifier" 90 234 245 2 2 [] # "object"); (A "." 91 245 246 2 2 []); (B "identifier" 92 246 258 2 2 [] # "field")] # "object"); (A "." 93 258 259 2 2 []); (B "identifier" 94 259 265 2 2 [] # "field")] # "object"); (A "." 95 265 266 2 2 []); (B "identifier" 96 266 273 2 2 [] # "field")] # "object"); (A "." 97 273 274 2 2 []); (B "identifier" 98 274 286 2 2 [] # "name"); (B "argument_list" 99 286 288 2 2 [(A "(" 100 286 287 2 2 []); (A ")" 101 287 288 2 2 [])] # "arguments")] # "operand")] # "right")] # "left"); (A "||" 102 289 291 2 2 [] # "operator"); (B "unary_expression" 103 292 341 2 2 [(A "!" 104 292 293 2 2 [] # "operator"); (B "method_invocation" 105 293 341 2 2 [(B "field_access" 106 293 326 2 2 [(B "field_access" 107 293 321 2 2 [(B "field_access" 108 293 314 2 2 [(B "identifier" 109 293 304 2 2 [] # "object"); (A "." 110 304 305 2 2 []); (B "identifier" 111 305 314 2 2 [] # "field")] # "object"); (A "." 112 314 315 2 2 []); (B "identifier" 113 315 321 2 2 [] # "field")] # "object"); (A "." 114 321 322 2 2 []); (B "identifier" 115 322 326 2 2 [] # "field")] # "object"); (A "." 116 326 327 2 2 []); (B "identifier" 117 327 339 2 2 [] # "name"); (B "argument_list" 118 339 341 2 2 [(A "(" 119 339 340 2 2 []); (A ")" 120 340 341 2 2 [])] # "arguments")] # "operand")] # "right")] # "left"); (A "||" 121 342 344 2 2 [] # "operator"); (B "unary_expression" 122 345 404 2 2 [(A "!" 123 345 346 2 2 [] # "operator"); (B "method_invocation" 124 346 404 2 2 [(B "field_access" 125 346 389 2 2 [(B "field_access" 126 346 374 2 2 [(B "field_access" 127 346 367 2 2 [(B "identifier" 128 346 357 2 2 [] # "object"); (A "." 129 357 358 2 2 []); (B "identifier" 130 358 367 2 2 [] # "field")] # "object"); (A "." 131 367 368 2 2 []); (B "identifier" 132 368 374 2 2 [] # "field")] # "object"); (A "." 133 374 375 2 2 []); (B "identifier" 134 375 389 2 2 [] # "field")] # "object"); (A "." 135 389 390 2 2 []); (B "identifier" 136 390 402 2 2 [] # "name"); (B "argument_list" 137 402 404 2 2 [(A "(" 138 402 403 2 2 []); (A ")" 139 403 404 2 2 [])] # "arguments")] # "operand")] # "right")] # "left"); (A "||" 140 405 407 2 2 [] # "operator"); (B "unary_expression" 141 408 473 2 2 [(A "!" 142 408 409 2 2 [] # "operator"); (B "method_invocation" 143 409 473 2 2 [(B "field_access" 144 409 458 2 2 [(B "field_access" 145 409 437 2 2 [(B "field_access" 146 409 430 2 2 [(B "identifier" 147 409 420 2 2 [] # "object"); (A "." 148 420 421 2 2 []); (B "identifier" 149 421 430 2 2 [] # "field")] # "object"); (A "." 150 430 431 2 2 []); (B "identifier" 151 431 437 2 2 [] # "field")] # "object"); (A "." 152 437 438 2 2 []); (B "identifier" 153 438 458 2 2 [] # "field")] # "object"); (A "." 154 458 459 2 2 []); (B "identifier" 155 459 471 2 2 [] # "name"); (B "argument_list" 156 471 473 2 2 [(A "(" 157 471 472 2 2 []); (A ")" 158 472 473 2 2 [])] # "arguments")] # "operand")] # "right")] # "left"); (A "||" 159 474 476 2 2 [] # "operator"); (B "unary_expression" 160 477 530 2 2 [(A "!" 161 477 478 2 2 [] # "operator"); (B "method_invocation" 162 478 530 2 2 [(B "field_access" 163 478 515 2 2 [(B "field_access" 164 478 506 2 2 [(B "field_access" 165 478 499 2 2 [(B "identifier" 166 478 489 2 2 [] # "object"); (A "." 167 489 490 2 2 []); (B "identifier" 168 490 499 2 2 [] # "field")] # "object"); (A "." 169 499 500 2 2 []); (B "identifier" 170 500 506 2 2 [] # "field")] # "object"); (A "." 171 506 507 2 2 []); (B "identifier" 172 507 515 2 2 [] # "field")] # "object"); (A "." 173 515 516 2 2 []); (B "identifier" 174 516 528 2 2 [] # "name"); (B "argument_list" 175 528 530 2 2 [(A "(" 176 528 529 2 2 []); (A ")" 177 529 530 2 2 [])] # "arguments")] # "operand")] # "right")] # "left"); (A "||" 178 531 533 2 2 [] # "operator"); (B "unary_expression" 179 534 593 2 2 [(A "!" 180 534 535 2 2 [] # "operator"); (B "method_invocation" 181 535 593 2 2 [(B "field_access" 182 535 578 2 2 [(B "field_access" 183 535 563 2 2 [(B "field_access" 184 535 556 2 2 [(B "identifier" 185 535 546 2 2 [] # "object"); (A "." 186 546 547 2 2 []); (B "identifier" 187 547 556 2 2 [] # "field")] # "object"); (A "." 188 556 557 2 2 []); (B "identifier" 189 557 563 2 2 [] # "field")] # "object"); (A "." 190 563 564 2 2 []); (B "identifier" 191 564 578 2 2 [] # "field")] # "object"); (A "." 192 578 579 2 2 []); (B "identifier" 193 579 591 2 2 [] # "name"); (B "argument_list" 194 591 593 2 2 [(A "(" 195 591 592 2 2 []); (A ")" 196 592 593 2 2 [])] # "arguments")] # "operand")] # "right")] # "left"); (A "||" 197 594 596 2 2 [] # "operator"); (B "unary_expression" 198 597 657 2 2 [(A "!" 199 597 598 2 2 [] # "operator"); (B "method_invocation" 200 598 657 2 2 [(B "field_access" 201 598 642 2 2 [(B "field_access" 202 598 626 2 2 [(B "field_access" 203 598 619 2 2 [(B "identifier" 204 598 609 2 2 [] # "object"); (A "." 205 609 610 2 2 []); (B "identifier" 206 610 619 2 2 [] # "field")] # "object"); (A "." 207 619 620 2 2 []); (B "identifier" 208 620 626 2 2 [] # "field")] # "object"); (A "." 209 626 627 2 2 []); (B "identifier" 210 627 642 2 2 [] # "field")] # "object"); (A "." 211 642 643 2 2 []); (B "identifier" 212 643 655 2 2 [] # "name"); (B "argument_list" 213 655 657 2 2 [(A "(" 214 655 656 2 2 []); (A ")" 215 656 657 2 2 [])] # "arguments")] # "operand")] # "right")] # "left"); (A "||" 216 658 660 2 2 [] # "operator"); (B "unary_expression" 217 661 730 2 2 [(A "!" 218 661 662 2 2 [] # "operator"); (B "method_invocation" 219 662 730 2 2 [(B "field_access" 220 662 715 2 2 [(B "field_access" 221 662 690 2 2 [(B "field_access" 222 662 683 2 2 [(B "identifier" 223 662 673 2 2 [] # "object"); (A "." 224 673 674 2 2 []); (B "identifier" 225 674 683 2 2 [] # "field")] # "object"); (A "." 226 683 684 2 2 []); (B "identifier" 227 684 690 2 2 [] # "field")] # "object"); (A "." 228 690 691 2 2 []); (B "identifier" 229 691 715 2 2 [] # "field")] # "object"); (A "." 230 715 716 2 2 []); (B "identifier" 231 716 728 2 2 [] # "name"); (B "argument_list" 232 728 730 2 2 [(A "(" 233 728 729 2 2 []); (A ")" 234 729 730 2 2 [])] # "arguments")] # "operand")] # "right")] # "left"); (A "||" 235 731 733 2 2 [] # "operator"); (B "unary_expression" 236 734 801 2 2 [(A "!" 237 734 735 2 2 [] # "operator"); (B "method_invocation" 238 735 801 2 2 [(B "field_access" 239 735 786 2 2 [(B "field_access" 240 735 763 2 2 [(B "field_access" 241 735 756 2 2 [(B "identifier" 242 735 746 2 2 [] # "object"); (A "." 243 746 747 2 2 []); (B "identifier" 244 747 756 2 2 [] # "field")] # "object"); (A "." 245 756 757 2 2 []); (B "identifier" 246 757 763 2 2 [] # "field")] # "object"); (A "." 247 763 764 2 2 []); (B "identifier" 248 764 786 2 2 [] # "field")] # "object"); (A "." 249 786 787 2 2 []); (B "identifier" 250 787 799 2 2 [] # "name"); (B "argument_list" 251 799 801 2 2 [(A "(" 252 799 800 2 2 []); (A ")" 253 800 801 2 2 [])] # "arguments")] # "operand")] # "right")] # "left"); (A "||" 254 802 804 2 2 [] # "operator"); (B "unary_expression" 255 805 862 2 2 [(A "!" 256 805 806 2 2 [] # "operator"); (B "method_invocation" 257 806 862 2 2 [(B "field_access" 258 806 847 2 2 [(B "field_access" 259 806 834 2 2 [(B "field_access" 260 806 827 2 2 [(B "identifier" 261 806 817 2 2 [] # "object"); (A "." 262 817 818 2 2 []); (B "identifier" 263 818 827 2 2 [] # "field")] # "object"); (A "." 264 827 828 2 2 []); (B "identifier" 265 828 834 2 2 [] # "field")] # "object"); (A "." 266 834 835 2 2 []); (B "identifier" 267 835 847 2 2 [] # "field")] # "object"); (A "." 268 847 848 2 2 []); (B "identifier" 269 848 860 2 2 [] # "name"); (B "argument_list" 270 860 862 2 2 [(A "(" 271 860 861 2 2 []); (A ")" 272 861 862 2 2 [])] # "arguments")] # "operand")] # "right")] # "left"); (A "||" 273 863 865 2 2 [] # "operator"); (B "unary_expression" 274 866 921 2 2 [(A "!" 275 866 867 2 2 [] # "operator"); (B "method_invocation" 276 867 921 2 2 [(B "field_access" 277 867 906 2 2 [(B "field_access" 278 867 895 2 2 [(B "field_access" 279 867 888 2 2 [(B "identifier" 280 867 878 2 2 [] # "object"); (A "." 281 878 879 2 2 []); (B "identifier" 282 879 888 2 2 [] # "field")] # "object"); (A "." 283 888 889 2 2 []); (B "identifier" 284 889 895 2 2 [] # "field")] # "object"); (A "." 285 895 896 2 2 []); (B "identifier" 286 896 906 2 2 [] # "field")] # "object"); (A "." 287 906 907 2 2 []); (B "identifier" 288 907 919 2 2 [] # "name"); (B "argument_list" 289 919 921 2 2 [(A "(" 290 919 920 2 2 []); (A ")" 291 920 921 2 2 [])] # "arguments")] # "operand")] # "right")] # "left"); (A "||" 292 922 924 2 2 [] # "operator"); (B "binary_expression" 293 925 1039 2 2 [(B "unary_expression" 294 925 979 2 2 [(A "!" 295 925 926 2 2 [] # "operator"); (B "method_invocation" 296 926 979 2 2 [(B "field_access" 297 926 964 2 2 [(B "field_access" 298 926 954 2 2 [(B "field_access" 299 926 947 2 2 [(B "identifier" 300 926 937 2 2 [] # "object"); (A "." 301 937 938 2 2 []); (B "identifier" 302 938 947 2 2 [] # "field")] # "object"); (A "." 303 947 948 2 2 []); (B "identifier" 304 948 954 2 2 [] # "field")] # "object"); (A "." 305 954 955 2 2 []); (B "identifier" 306 955 964 2 2 [] # "field")] # "object"); (A "." 307 964 965 2 2 []); (B "identifier" 308 965 977 2 2 [] # "name"); (B "argument_list" 309 977 979 2 2 [(A "(" 310 977 978 2 2 []); (A ")" 311 978 979 2 2 [])] # "arguments")] # "operand")] # "left"); (A "|" 312 980 981 2 2 [] # "operator"); (B "unary_expression" 313 982 1039 2 2 [(A "!" 314 982 983 2 2 [] # "operator"); (B "method_invocation" 315 983 1039 2 2 [(B "field_access" 316 983 1024 2 2 [(B "field_access" 317 983 1011 2 2 [(B "field_access" 318 983 1004 2 2 [(B "identifier" 319 983 994 2 2 [] # "object"); (A "." 320 994 995 2 2 []); (B "identifier" 321 995 1004 2 2 [] # "field")] # "object"); (A "." 322 1004 1005 2 2 []); (B "identifier" 323 1005 1011 2 2 [] # "field")] # "object"); (A "." 324 1011 1012 2 2 []); (B "identifier" 325 1012 1024 2 2 [] # "field")] # "object"); (A "." 326 1024 1025 2 2 []); (B "identifier" 327 1025 1037 2 2 [] # "name"); (B "argument_list" 328 1037 1039 2 2 [(A "(" 329 1037 1038 2 2 []); (A ")" 330 1038 1039 2 2 [])] # "arguments")] # "operand")] # "right")] # "right")]); (A ")" 331 1039 1040 2 2 [])] # "condition"); (B "block" 332 1041 1076 2 4 [(A "{" 333 1041 1042 2 2 []); (B "expression_statement" 334 1049 1070 3 3 [(B "method_invocation" 335 1049 1069 3 3 [(B "identifier" 336 1049 1055 3 3 [] # "object"); (A "." 337 1055 1056 3 3 []); (B "identifier" 338 1056 1061 3 3 [] # "name"); (B "argument_list" 339 1061 1069 3 3 [(A "(" 340 1061 1062 3 3 []); (B "string_literal" 341 1062 1068 3 3 []); (A ")" 342 1068 1069 3 3 [])] # "arguments")]); (A ";" 343 1069 1070 3 3 [])]); (A "}" 344 1075 1076 4 4 [])] # "consequence")]); (A "}" 345 1079 1080 5 5 [])]); (A "}" 346 1081 1082 6 6 [])] # "body")])]).
Example static_if_cond_wrap1 : as_expected static_if_cond_wrap1_source static_if_cond_wrap1_tree (U "class Conditional {
  {
    if (
      !SObjectType.Attribute__c.fields.Name.isAccessible()
        && !SObjectType
          .Attribute__c
          .fields
          .Display_on_Actions_Tab__c
          .isAccessible()
      || !SObjectType.Attribute__c.fields.Display_Order__c.isAccessible()
      || !SObjectType.Attribute__c.fields.Icon__c.isAccessible()
      || !SObjectType.Action__c.fields.Name.isAccessible()
      || !SObjectType.Action__c.fields.Description__c.isAccessible()
      || !SObjectType.Action__c.fields.Translation_Index__c.isAccessible()
      || !SObjectType.Action__c.fields.State__c.isAccessible()
      || !SObjectType.Action__c.fields.Display_Tab__c.isAccessible()
      || !SObjectType.Action__c.fields.Display_Tile__c.isAccessible()
      || !SObjectType.Action__c.fields.Action_Type_Attribute__c.isAccessible()
      || !SObjectType.Action__c.fields.Tile_Type_Attribute__c.isAccessible()
      || !SObjectType.Action__c.fields.From_Date__c.isAccessible()
      || !SObjectType.Action__c.fields.To_Date__c.isAccessible()
      || !SObjectType.Action__c.fields.Parent__c.isAccessible()
        | !SObjectType.Action__c.fields.RecordTypeId.isAccessible()
    ) {
      System.debug('true');
    }
  }
}
").
Proof. apply run_test_ok. vm_compute. reflexivity. Qed.

(* tests/static/method_chaining_nested_arguments.in *)
Definition static_method_chaining_nested_arguments_source : ustr := U "class A {
  {
    a0aaaaaaaaaaaaaaaaaa.bbbbbbbbbbbbbbbbbbbb(
        kkkkkkkkkkkkkkkkk(
          k111111111111,
          k222222222222222,
          k33333333333,
          k444444444
        )
      )
      .cccccccccccccccccccccc()
      .ddddddddddddddddddddddddddddddd();

    a1aaaaaaaaaaaaaaaaaa.jj()
      .bbbbbbbbbbbbbbbbbbbb(
        kkkkkkkkkkkkkkkkk(
          k111111111111,
          k222222222222222,
          k33333333333,
          k444444444
        )
      )
      .cccccccccccccccccccccc()
      .ddddddddddddddddddddddddddddddd();

    a1aaaaaaaaaaaaaaaaaa.jj()
      .bbbbbbbbbbbbbbbbbbbb()
      .cccccccccccccccccccccc()
      .ddddddddddddddddddddddddddddddd(
        kkkkkkkkkkkkkkkkk(
          k111111111111,
          k222222222222222,
          k33333333333,
          k444444444
        )
      );
  }
}
".
Definition static_method_chaining_nested_arguments_tree : span := (B "parser_output" 1 0 838 0 38 [(B "class_declaration" 2 0 837 0 37 [(A "class" 3 0 5 0 0 []); (B "identifier" 4 6 7 0 0 [] # "name"); (B "class_body" 5 8 837 0 37 [(A "{" 6 8 9 0 0 []); (B "block" 7 12 835 1 36 [(A "{" 8 12 13 1 1 []); (B "expression_statement" 9 18 277 2 11 [(B "method_invocation" 10 18 276 2 11 [(B "method_invocation" 11 18 235 2 10 [(B "method_invocation" 12 18 203 2 9 [(B "identifier" 13 18 38 2 2 [] # "object"); (A "." 14 38 39 2 2 []); (B "identifier" 15 39 59 2 2 [] # "name"); (B "argument_list" 16 59 203 2 9 [(A "(" 17 59 60 2 2 []); (B "method_invocation" 18 69 195 3 8 [(B "identifier" 19 69 86 3 3 [] # "name"); (B "argument_list" 20 86 195 3 8 [(A "(" 21 86 87 3 3 []); (B "identifier" 22 98 111 4 4 []); (A "," 23 111 112 4 4 []); (B "identifier" 24 123 139 5 5 []); (A "," 25 139 140 5 5 []); (B "identifier" 26 151 163 6 6 []); (A "," 27 163 164 6 6 []); (B "identifier" 28 175 185 7 7 []); (A ")" 29 194 195 8 8 [])] # "arguments")]); (A ")" 30 202 203 9 9 [])] # "arguments")] # "object"); (A "." 31 210 211 10 10 []); (B "identifier" 32 211 233 10 10 [] # "name"); (B "argument_list" 33 233 235 10 10 [(A "(" 34 233 234 10 10 []); (A ")" 35 234 235 10 10 [])] # "arguments")] # "object"); (A "." 36 242 243 11 11 []); (B "identifier" 37 243 274 11 11 [] # "name"); (B "argument_list" 38 274 276 11 11 [(A "(" 39 274 275 11 11 []); (A ")" 40 275 276 11 11 [])] # "arguments")]); (A ";" 41 276 277 11 11 [])]); (B "expression_statement" 42 283 554 13 23 [(B "method_invocation" 43 283 553 13 23 [(B "method_invocation" 44 283 512 13 22 [(B "method_invocation" 45 283 480 13 21 [(B "method_invocation" 46 283 308 13 13 [(B "identifier" 47 283 303 13 13 [] # "object"); (A "." 48 303 304 13 13 []); (B "identifier" 49 304 306 13 13 [] # "name"); (B "argument_list" 50 306 308 13 13 [(A "(" 51 306 307 13 13 []); (A ")" 52 307 308 13 13 [])] # "arguments")] # "object"); (A "." 53 315 316 14 14 []); (B "identifier" 54 316 336 14 14 [] # "name"); (B "argument_list" 55 336 480 14 21 [(A "(" 56 336 337 14 14 []); (B "method_invocation" 57 346 472 15 20 [(B "identifier" 58 346 363 15 15 [] # "name"); (B "argument_list" 59 363 472 15 20 [(A "(" 60 363 364 15 15 []); (B "identifier" 61 375 388 16 16 []); (A "," 62 388 389 16 16 []); (B "identifier" 63 400 416 17 17 []); (A "," 64 416 417 17 17 []); (B "identifier" 65 428 440 18 18 []); (A "," 66 440 441 18 18 []); (B "identifier" 67 452 462 19 19 []); (A ")" 68 471 472 20 20 [])] # "arguments")]); (A ")" 69 479 480 21 21 [])] # "arguments")] # "object"); (A "." 70 487 488 22 22 []); (B "identifier" 71 488 510 22 22 [] # "name"); (B "argument_list" 72 510 512 22 22 [(A "(" 73 510 511 22 22 []); (A ")" 74 511 512 22 22 [])] # "arguments")] # "object"); (A "." 75 519 520 23 23 []); (B "identifier" 76 520 551 23 23 [] # "name"); (B "argument_list" 77 551 553 23 23 [(A "(" 78 551 552 23 23 []); (A ")" 79 552 553 23 23 [])] # "arguments")]); (A ";" 80 553 554 23 23 [])]); (B "expression_statement" 81 560 831 25 35 [(B "method_invocation" 82 560 830 25 35 [(B "method_invocation" 83 560 647 25 27 [(B "method_invocation" 84 560 615 25 26 [(B "method_invocation" 85 560 585 25 25 [(B "identifier" 86 560 580 25 25 [] # "object"); (A "." 87 580 581 25 25 []); (B "identifier" 88 581 583 25 25 [] # "name"); (B "argument_list" 89 583 585 25 25 [(A "(" 90 583 584 25 25 []); (A ")" 91 584 585 25 25 [])] # "arguments")] # "object"); (A "." 92 592 593 26 26 []); (B "identifier" 93 593 613 26 26 [] # "name"); (B "argument_list" 94 613 615 26 26 [(A "(" 95 613 614 26 26 []); (A ")" 96 614 615 26 26 [])] # "arguments")] # "object"); (A "." 97 622 623 27 27 []); (B "identifier" 98 623 645 27 27 [] # "name"); (B "argument_list" 99 645 647 27 27 [(A "(" 100 645 646 27 27 []); (A ")" 101 646 647 27 27 [])] # "arguments")] # "object"); (A "." 102 654 655 28 28 []); (B "identifier" 103 655 686 28 28 [] # "name"); (B "argument_list" 104 686 830 28 35 [(A "(" 105 686 687 28 28 []); (B "method_invocation" 106 696 822 29 34 [(B "identifier" 107 696 713 29 29 [] # "name"); (B "argument_list" 108 713 822 29 34 [(A "(" 109 713 714 29 29 []); (B "identifier" 110 725 738 30 30 []); (A "," 111 738 739 30 30 []); (B "identifier" 112 750 766 31 31 []); (A "," 113 766 767 31 31 []); (B "identifier" 114 778 790 32 32 []); (A "," 115 790 791 32 32 []); (B "identifier" 116 802 812 33 33 []); (A ")" 117 821 822 34 34 [])] # "arguments")]); (A ")" 118 829 830 35 35 [])] # "arguments")]); (A ";" 119 830 831 35 35 [])]); (A "}" 120 834 835 36 36 [])]); (A "}" 121 836 837 37 37 [])] # "body")])]).
Example static_method_chaining_nested_arguments : as_expected static_method_chaining_nested_arguments_source static_method_chaining_nested_arguments_tree (U "class A {
  {
    a0aaaaaaaaaaaaaaaaaa
      .bbbbbbbbbbbbbbbbbbbb(
        kkkkkkkkkkkkkkkkk(
          k111111111111,
          k222222222222222,
          k33333333333,
          k444444444
        )
      )
      .cccccccccccccccccccccc()
      .ddddddddddddddddddddddddddddddd();

    a1aaaaaaaaaaaaaaaaaa
      .jj()
      .bbbbbbbbbbbbbbbbbbbb(
        kkkkkkkkkkkkkkkkk(
          k111111111111,
          k222222222222222,
          k33333333333,
          k444444444
        )
      )
      .cccccccccccccccccccccc()
      .ddddddddddddddddddddddddddddddd();

    a1aaaaaaaaaaaaaaaaaa
      .jj()
      .bbbbbbbbbbbbbbbbbbbb()
      .cccccccccccccccccccccc()
      .ddddddddddddddddddddddddddddddd(
        kkkkkkkkkkkkkkkkk(
          k111111111111,
          k222222222222222,
          k33333333333,
          k444444444
        )
      );
  }
}
").
Proof. apply run_test_ok. vm_compute. reflexivity. Qed.

(* tests/static/nested_wrappable.in *)
Definition static_nested_wrappable_source : ustr := U "Class A{{
if (someFunction(arg1, arg2, someLongArgument, anotherVeryLongArgumentIsHereForYou) && anotherCondition) {
}
}}
".
Definition static_nested_wrappable_tree : span := (B "parser_output" 1 0 122 0 4 [(B "class_declaration" 2 0 121 0 3 [(A "class" 3 0 5 0 0 []); (B "identifier" 4 6 7 0 0 [] # "name"); (B "class_body" 5 7 121 0 3 [(A "{" 6 7 8 0 0 []); (B "block" 7 8 120 0 3 [(A "{" 8 8 9 0 0 []); (B "if_statement" 9 10 118 1 2 [(A "if" 10 10 12 1 1 []); (B "parenthesized_expression" 11 13 114 1 1 [(A "(" 12 13 14 1 1 []); (B "binary_expression" 13 14 113 1 1 [(B "method_invocation" 14 14 93 1 1 [(B "identifier" 15 14 26 1 1 [] # "name"); (B "argument_list" 16 26 93 1 1 [(A "(" 17 26 27 1 1 []); (B "identifier" 18 27 31 1 1 []); (A "," 19 31 32 1 1 []); (B "identifier" 20 33 37 1 1 []); (A "," 21 37 38 1 1 []); (B "identifier" 22 39 55 1 1 []); (A "," 23 55 56 1 1 []); (B "identifier" 24 57 92 1 1 []); (A ")" 25 92 93 1 1 [])] # "arguments")] # "left"); (A "&&" 26 94 96 1 1 [] # "operator"); (B "identifier" 27 97 113 1 1 [] # "right")]); (A ")" 28 113 114 1 1 [])] # "condition"); (B "block" 29 115 118 1 2 [(A "{" 30 115 116 1 1 []); (A "}" 31 117 118 2 2 [])] # "consequence")]); (A "}" 32 119 120 3 3 [])]); (A "}" 33 120 121 3 3 [])] # "body")])]).
Example static_nested_wrappable : as_expected static_nested_wrappable_source static_nested_wrappable_tree (U "class A {
  {
    if (
      someFunction(
        arg1,
        arg2,
        someLongArgument,
        anotherVeryLongArgumentIsHereForYou
      )
      && anotherCondition
    ) {
    }
  }
}
").
Proof. apply run_test_ok. vm_compute. reflexivity. Qed.

(* tests/static/punc_and_comment_flip.in *)
Definition static_punc_and_comment_flip_source : ustr := U "// fix: https://github.com/xixiaofinland/afmt/issues/114
class TestClass {
  {
    continue; /*t1*/

    continue; //t2

    continue // t3
    ;

    continue
    // t4
    ;

    continue true; //t5

    continue
    // t4 /*t*/
    ;

    continue
    // t4
    /*t*/
    ;

    continue
    /*t*/
    // t4
    ;
  }

  {
    break; /*t1*/

    break; //t2

    break // t3
    ;

    break
    // t4
    ;

    break true; //t5

    break
    // t4 /*t*/
    ;

    break
    // t4
    /*t*/
    ;

    break
    /*t*/
    // t4
    ;
  }

  {
    return; /*t1*/

    return; //t2

    return // t3
    ;

    return
    // t4
    ;

    return true; //t5

    return
    // t4 /*t*/
    ;

    return
    // t4
    /*t*/
    ;

    return
    /*t*/
    // t4
    ;
  }
}
".
Definition static_punc_and_comment_flip_tree : span := (B "parser_output" 1 0 777 0 89 [(C "line_comment" 2 0 56 0 0 []); (B "class_declaration" 3 57 776 1 88 [(A "class" 4 57 62 1 1 []); (B "identifier" 5 63 72 1 1 [] # "name"); (B "class_body" 6 73 776 1 88 [(A "{" 7 73 74 1 1 []); (B "block" 8 77 320 2 29 [(A "{" 9 77 78 2 2 []); (B "continue_statement" 10 83 92 3 3 [(A "continue" 11 83 91 3 3 []); (A ";" 12 91 92 3 3 [])]); (C "block_comment" 13 93 99 3 3 []); (B "continue_statement" 14 105 114 5 5 [(A "continue" 15 105 113 5 5 []); (A ";" 16 113 114 5 5 [])]); (C "line_comment" 17 115 119 5 5 []); (B "continue_statement" 18 125 145 7 8 [(A "continue" 19 125 133 7 7 []); (C "line_comment" 20 134 139 7 7 []); (A ";" 21 144 145 8 8 [])]); (B "continue_statement" 22 151 175 10 12 [(A "continue" 23 151 159 10 10 []); (C "line_comment" 24 164 169 11 11 []); (A ";" 25 174 175 12 12 [])]); (B "local_variable_declaration" 26 181 195 14 14 [(B "type_identifier" 27 181 189 14 14 [] # "type"); (B "variable_declarator" 28 190 194 14 14 [(B "identifier" 29 190 194 14 14 [] # "name")] # "declarator"); (A ";" 30 194 195 14 14 [])]); (C "line_comment" 31 196 200 14 14 []); (B "continue_statement" 32 206 236 16 18 [(A "continue" 33 206 214 16 16 []); (C "line_comment" 34 219 230 17 17 []); (A ";" 35 235 236 18 18 [])]); (B "continue_statement" 36 242 276 20 23 [(A "continue" 37 242 250 20 20 []); (C "line_comment" 38 255 260 21 21 []); (C "block_comment" 39 265 270 22 22 []); (A ";" 40 275 276 23 23 [])]); (B "continue_statement" 41 282 316 25 28 [(A "continue" 42 282 290 25 25 []); (C "block_comment" 43 295 300 26 26 []); (C "line_comment" 44 305 310 27 27 []); (A ";" 45 315 316 28 28 [])]); (A "}" 46 319 320 29 29 [])]); (B "block" 47 324 543 31 58 [(A "{" 48 324 325 31 31 []); (B "break_statement" 49 330 336 32 32 [(A "break" 50 330 335 32 32 []); (A ";" 51 335 336 32 32 [])]); (C "block_comment" 52 337 343 32 32 []); (B "break_statement" 53 349 355 34 34 [(A "break" 54 349 354 34 34 []); (A ";" 55 354 355 34 34 [])]); (C "line_comment" 56 356 360 34 34 []); (B "break_statement" 57 366 383 36 37 [(A "break" 58 366 371 36 36 []); (C "line_comment" 59 372 377 36 36 []); (A ";" 60 382 383 37 37 [])]); (B "break_statement" 61 389 410 39 41 [(A "break" 62 389 394 39 39 []); (C "line_comment" 63 399 404 40 40 []); (A ";" 64 409 410 41 41 [])]); (B "local_variable_declaration" 65 416 427 43 43 [(B "type_identifier" 66 416 421 43 43 [] # "type"); (B "variable_declarator" 67 422 426 43 43 [(B "identifier" 68 422 426 43 43 [] # "name")] # "declarator"); (A ";" 69 426 427 43 43 [])]); (C "line_comment" 70 428 432 43 43 []); (B "break_statement" 71 438 465 45 47 [(A "break" 72 438 443 45 45 []); (C "line_comment" 73 448 459 46 46 []); (A ";" 74 464 465 47 47 [])]); (B "break_statement" 75 471 502 49 52 [(A "break" 76 471 476 49 49 []); (C "line_comment" 77 481 486 50 50 []); (C "block_comment" 78 491 496 51 51 []); (A ";" 79 501 502 52 52 [])]); (B "break_statement" 80 508 539 54 57 [(A "break" 81 508 513 54 54 []); (C "block_comment" 82 518 523 55 55 []); (C "line_comment" 83 528 533 56 56 []); (A ";" 84 538 539 57 57 [])]); (A "}" 85 542 543 58 58 [])]); (B "block" 86 547 774 60 87 [(A "{" 87 547 548 60 60 []); (B "return_statement" 88 553 560 61 61 [(A "return" 89 553 559 61 61 []); (A ";" 90 559 560 61 61 [])]); (C "block_comment" 91 561 567 61 61 []); (B "return_statement" 92 573 580 63 63 [(A "return" 93 573 579 63 63 []); (A ";" 94 579 580 63 63 [])]); (C "line_comment" 95 581 585 63 63 []); (B "return_statement" 96 591 609 65 66 [(A "return" 97 591 597 65 65 []); (C "line_comment" 98 598 603 65 65 []); (A ";" 99 608 609 66 66 [])]); (B "return_statement" 100 615 637 68 70 [(A "return" 101 615 621 68 68 []); (C "line_comment" 102 626 631 69 69 []); (A ";" 103 636 637 70 70 [])]); (B "return_statement" 104 643 655 72 72 [(A "return" 105 643 649 72 72 []); (B "boolean" 106 650 654 72 72 [(A "true" 107 650 654 72 72 [])]); (A ";" 108 654 655 72 72 [])]); (C "line_comment" 109 656 660 72 72 []); (B "return_statement" 110 666 694 74 76 [(A "return" 111 666 672 74 74 []); (C "line_comment" 112 677 688 75 75 []); (A ";" 113 693 694 76 76 [])]); (B "return_statement" 114 700 732 78 81 [(A "return" 115 700 706 78 78 []); (C "line_comment" 116 711 716 79 79 []); (C "block_comment" 117 721 726 80 80 []); (A ";" 118 731 732 81 81 [])]); (B "return_statement" 119 738 770 83 86 [(A "return" 120 738 744 83 83 []); (C "block_comment" 121 749 754 84 84 []); (C "line_comment" 122 759 764 85 85 []); (A ";" 123 769 770 86 86 [])]); (A "}" 124 773 774 87 87 [])]); (A "}" 125 775 776 88 88 [])] # "body")])]).
Example static_punc_and_comment_flip : as_expected static_punc_and_comment_flip_source static_punc_and_comment_flip_tree (U "// fix: https://github.com/xixiaofinland/afmt/issues/114
class TestClass {
  {
    continue; /*t1*/

    continue; //t2

    continue;
    // t3

    continue;
    // t4

    continue true; //t5

    continue;
    // t4 /*t*/

    continue
    /*t*/;
    // t4

    continue
    /*t*/;
    // t4
  }

  {
    break; /*t1*/

    break; //t2

    break;
    // t3

    break;
    // t4

    break true; //t5

    break;
    // t4 /*t*/

    break
    /*t*/;
    // t4

    break
    /*t*/;
    // t4
  }

  {
    return; /*t1*/

    return; //t2

    return;
    // t3

    return;
    // t4

    return true; //t5

    return;
    // t4 /*t*/

    return
    /*t*/;
    // t4

    return
    /*t*/;
    // t4
  }
}
").
Proof. apply run_test_ok. vm_compute. reflexivity. Qed.

(* tests/static/return_wrapping.in *)
Definition static_return_wrapping_source : ustr := U "class Conditional {
  {
    return 'a long string ' + 'from concatenating ' + 'many other strings ' + 'together.';
  }
}
".
Definition static_return_wrapping_tree : span := (B "parser_output" 1 0 121 0 5 [(B "class_declaration" 2 0 120 0 4 [(A "class" 3 0 5 0 0 []); (B "identifier" 4 6 17 0 0 [] # "name"); (B "class_body" 5 18 120 0 4 [(A "{" 6 18 19 0 0 []); (B "block" 7 22 118 1 3 [(A "{" 8 22 23 1 1 []); (B "return_statement" 9 28 114 2 2 [(A "return" 10 28 34 2 2 []); (B "binary_expression" 11 35 113 2 2 [(B "binary_expression" 12 35 99 2 2 [(B "binary_expression" 13 35 75 2 2 [(B "string_literal" 14 35 51 2 2 [] # "left"); (A "+" 15 52 53 2 2 [] # "operator"); (B "string_literal" 16 54 75 2 2 [] # "right")] # "left"); (A "+" 17 76 77 2 2 [] # "operator"); (B "string_literal" 18 78 99 2 2 [] # "right")] # "left"); (A "+" 19 100 101 2 2 [] # "operator"); (B "string_literal" 20 102 113 2 2 [] # "right")]); (A ";" 21 113 114 2 2 [])]); (A "}" 22 117 118 3 3 [])]); (A "}" 23 119 120 4 4 [])] # "body")])]).
Example static_return_wrapping : as_expected static_return_wrapping_source static_return_wrapping_tree (U "class Conditional {
  {
    return 'a long string '
      + 'from concatenating '
      + 'many other strings '
      + 'together.';
  }
}
").
Proof. apply run_test_ok. vm_compute. reflexivity. Qed.

(* tests/static/soql_and_chain_methods.in *)
Definition static_soql_and_chain_methods_source : ustr := U "class A {
  {
    Boolean aaaaaaaaaaaaaaaaaaaaaaaaaaaaaaaaaa =
      [
        SELECT
          Id,
          Name______bbbbbbbbbbbbbbbbbbbbbbbbbbbbbbbbbbbbbbbbbbbbb_c,
          Kname_________________b_______________aa_c
        FROM Contact
      ] > 0;

    [
        SELECT
          Id,
          Name______bbbbbbbbbbbbbbbbbbbbbbbbbbbbbbbbbbbbbbbbbbbbb_c,
          Kname_________________b_______________aa_c
        FROM Contact
      ]
      .b()
      .c();

    [
        SELECT
          Id,
          Name______bbbbbbbbbbbbbbbbbbbbbbbbbbbbbbbbbbbbbbbbbbbbb_c,
          Kname_________________b_______________aa_c
        FROM Contact
      ]
      .b()
      .c();
  }
}
".
Definition static_soql_and_chain_methods_tree : span := (B "parser_output" 1 0 682 0 32 [(B "class_declaration" 2 0 681 0 31 [(A "class" 3 0 5 0 0 []); (B "identifier" 4 6 7 0 0 [] # "name"); (B "class_body" 5 8 681 0 31 [(A "{" 6 8 9 0 0 []); (B "block" 7 12 679 1 30 [(A "{" 8 12 13 1 1 []); (B "local_variable_declaration" 9 18 255 2 9 [(B "type_identifier" 10 18 25 2 2 [] # "type"); (B "variable_declarator" 11 26 254 2 9 [(B "identifier" 12 26 60 2 2 [] # "name"); (B "assignment_operator" 13 61 62 2 2 [(A "=" 14 61 62 2 2 [])]); (B "binary_expression" 15 69 254 3 9 [(B "query_expression" 16 69 250 3 9 [(A "[" 17 69 70 3 3 []); (B "soql_query_body" 18 79 242 4 8 [(B "select_clause" 19 79 221 4 7 [(A "SELECT" 20 79 85 4 4 []); (B "field_identifier" 21 96 98 5 5 [(B "identifier" 22 96 98 5 5 [])]); (A "," 23 98 99 5 5 []); (B "field_identifier" 24 110 167 6 6 [(B "identifier" 25 110 167 6 6 [])]); (A "," 26 167 168 6 6 []); (B "field_identifier" 27 179 221 7 7 [(B "identifier" 28 179 221 7 7 [])])] # "select_clause"); (B "from_clause" 29 230 242 8 8 [(A "FROM" 30 230 234 8 8 []); (B "storage_identifier" 31 235 242 8 8 [(B "identifier" 32 235 242 8 8 [])])] # "from_clause")]); (A "]" 33 249 250 9 9 [])] # "left"); (A ">" 34 251 252 9 9 [] # "operator"); (B "int" 35 253 254 9 9 [] # "right")] # "value")] # "declarator"); (A ";" 36 254 255 9 9 [])]); (B "expression_statement" 37 261 465 11 19 [(B "method_invocation" 38 261 464 11 19 [(B "method_invocation" 39 261 453 11 18 [(B "query_expression" 40 261 442 11 17 [(A "[" 41 261 262 11 11 []); (B "soql_query_body" 42 271 434 12 16 [(B "select_clause" 43 271 413 12 15 [(A "SELECT" 44 271 277 12 12 []); (B "field_identifier" 45 288 290 13 13 [(B "identifier" 46 288 290 13 13 [])]); (A "," 47 290 291 13 13 []); (B "field_identifier" 48 302 359 14 14 [(B "identifier" 49 302 359 14 14 [])]); (A "," 50 359 360 14 14 []); (B "field_identifier" 51 371 413 15 15 [(B "identifier" 52 371 413 15 15 [])])] # "select_clause"); (B "from_clause" 53 422 434 16 16 [(A "FROM" 54 422 426 16 16 []); (B "storage_identifier" 55 427 434 16 16 [(B "identifier" 56 427 434 16 16 [])])] # "from_clause")]); (A "]" 57 441 442 17 17 [])] # "object"); (A "." 58 449 450 18 18 []); (B "identifier" 59 450 451 18 18 [] # "name"); (B "argument_list" 60 451 453 18 18 [(A "(" 61 451 452 18 18 []); (A ")" 62 452 453 18 18 [])] # "arguments")] # "object"); (A "." 63 460 461 19 19 []); (B "identifier" 64 461 462 19 19 [] # "name"); (B "argument_list" 65 462 464 19 19 [(A "(" 66 462 463 19 19 []); (A ")" 67 463 464 19 19 [])] # "arguments")]); (A ";" 68 464 465 19 19 [])]); (B "expression_statement" 69 471 675 21 29 [(B "method_invocation" 70 471 674 21 29 [(B "method_invocation" 71 471 663 21 28 [(B "query_expression" 72 471 652 21 27 [(A "[" 73 471 472 21 21 []); (B "soql_query_body" 74 481 644 22 26 [(B "select_clause" 75 481 623 22 25 [(A "SELECT" 76 481 487 22 22 []); (B "field_identifier" 77 498 500 23 23 [(B "identifier" 78 498 500 23 23 [])]); (A "," 79 500 501 23 23 []); (B "field_identifier" 80 512 569 24 24 [(B "identifier" 81 512 569 24 24 [])]); (A "," 82 569 570 24 24 []); (B "field_identifier" 83 581 623 25 25 [(B "identifier" 84 581 623 25 25 [])])] # "select_clause"); (B "from_clause" 85 632 644 26 26 [(A "FROM" 86 632 636 26 26 []); (B "storage_identifier" 87 637 644 26 26 [(B "identifier" 88 637 644 26 26 [])])] # "from_clause")]); (A "]" 89 651 652 27 27 [])] # "object"); (A "." 90 659 660 28 28 []); (B "identifier" 91 660 661 28 28 [] # "name"); (B "argument_list" 92 661 663 28 28 [(A "(" 93 661 662 28 28 []); (A ")" 94 662 663 28 28 [])] # "arguments")] # "object"); (A "." 95 670 671 29 29 []); (B "identifier" 96 671 672 29 29 [] # "name"); (B "argument_list" 97 672 674 29 29 [(A "(" 98 672 673 29 29 []); (A ")" 99 673 674 29 29 [])] # "arguments")]); (A ";" 100 674 675 29 29 [])]); (A "}" 101 678 679 30 30 [])]); (A "}" 102 680 681 31 31 [])] # "body")])]).
Example static_soql_and_chain_methods : as_expected static_soql_and_chain_methods_source static_soql_and_chain_methods_tree (U "class A {
  {
    Boolean aaaaaaaaaaaaaaaaaaaaaaaaaaaaaaaaaa =
      [
        SELECT
          Id,
          Name______bbbbbbbbbbbbbbbbbbbbbbbbbbbbbbbbbbbbbbbbbbbbb_c,
          Kname_________________b_______________aa_c
        FROM Contact
      ]
      > 0;

    [
      SELECT
        Id,
        Name______bbbbbbbbbbbbbbbbbbbbbbbbbbbbbbbbbbbbbbbbbbbbb_c,
        Kname_________________b_______________aa_c
      FROM Contact
    ]
      .b()
      .c();

    [
      SELECT
        Id,
        Name______bbbbbbbbbbbbbbbbbbbbbbbbbbbbbbbbbbbbbbbbbbbbb_c,
        Kname_________________b_______________aa_c
      FROM Contact
    ]
      .b()
      .c();
  }
}
").
Proof. apply run_test_ok. vm_compute. reflexivity. Qed.

(* tests/static/soql_chaining.in *)
Definition static_soql_chaining_source : ustr := U "class Chaining {
  {

    [Select Id, Name From acc].a;

    String g1 = [
      SELECT Id, Name, One_Field__c, Another_Field__c
      FROM Account
      WHERE Id = :accId
    ];

    String g2 = [
      SELECT Id
      FROM Account
    ].a;

    [ SELECT Id, Name, One_Field__c, Another_Field__c FROM Account WHERE Id = :accId
    ]
    .Name().bbbbbbbbbbbbbbbbbbbbb.cccccccccccccccccc.aaaaaaaaaaaaaaaaaaaaaaaaaaaaaa();

    String g3 = [
      SELECT Id, Name, One_Field__c, Another_Field__c
      FROM Account
      WHERE Id = :accId
    ]
    .Name().bbbbbbbbbbbbbbbbbbbbb.cccccccccccccccccc.aaaaaaaaaaaaaaaaaaaaaaaaaaaaaa();

    String g3 = [
      SELECT Id, Name, One_Field__c, Another_Field__c
      FROM Account
      WHERE Id = :accId
    ]
    .Name;
  }
}
".
Definition static_soql_chaining_tree : span := (B "parser_output" 1 0 769 0 35 [(B "class_declaration" 2 0 768 0 34 [(A "class" 3 0 5 0 0 []); (B "identifier" 4 6 14 0 0 [] # "name"); (B "class_body" 5 15 768 0 34 [(A "{" 6 15 16 0 0 []); (B "block" 7 19 766 1 33 [(A "{" 8 19 20 1 1 []); (B "expression_statement" 9 26 55 3 3 [(B "field_access" 10 26 54 3 3 [(B "query_expression" 11 26 52 3 3 [(A "[" 12 26 27 3 3 []); (B "soql_query_body" 13 27 51 3 3 [(B "select_clause" 14 27 42 3 3 [(A "SELECT" 15 27 33 3 3 []); (B "field_identifier" 16 34 36 3 3 [(B "identifier" 17 34 36 3 3 [])]); (A "," 18 36 37 3 3 []); (B "field_identifier" 19 38 42 3 3 [(B "identifier" 20 38 42 3 3 [])])] # "select_clause"); (B "from_clause" 21 43 51 3 3 [(A "FROM" 22 43 47 3 3 []); (B "storage_identifier" 23 48 51 3 3 [(B "identifier" 24 48 51 3 3 [])])] # "from_clause")]); (A "]" 25 51 52 3 3 [])] # "object"); (A "." 26 52 53 3 3 []); (B "identifier" 27 53 54 3 3 [] # "field")]); (A ";" 28 54 55 3 3 [])]); (B "local_variable_declaration" 29 61 178 5 9 [(B "type_identifier" 30 61 67 5 5 [] # "type"); (B "variable_declarator" 31 68 177 5 9 [(B "identifier" 32 68 70 5 5 [] # "name"); (B "assignment_operator" 33 71 72 5 5 [(A "=" 34 71 72 5 5 [])]); (B "query_expression" 35 73 177 5 9 [(A "[" 36 73 74 5 5 []); (B "soql_query_body" 37 81 171 6 8 [(B "select_clause" 38 81 128 6 6 [(A "SELECT" 39 81 87 6 6 []); (B "field_identifier" 40 88 90 6 6 [(B "identifier" 41 88 90 6 6 [])]); (A "," 42 90 91 6 6 []); (B "field_identifier" 43 92 96 6 6 [(B "identifier" 44 92 96 6 6 [])]); (A "," 45 96 97 6 6 []); (B "field_identifier" 46 98 110 6 6 [(B "identifier" 47 98 110 6 6 [])]); (A "," 48 110 111 6 6 []); (B "field_identifier" 49 112 128 6 6 [(B "identifier" 50 112 128 6 6 [])])] # "select_clause"); (B "from_clause" 51 135 147 7 7 [(A "FROM" 52 135 139 7 7 []); (B "storage_identifier" 53 140 147 7 7 [(B "identifier" 54 140 147 7 7 [])])] # "from_clause"); (B "where_clause" 55 154 171 8 8 [(A "WHERE" 56 154 159 8 8 []); (B "comparison_expression" 57 160 171 8 8 [(B "field_identifier" 58 160 162 8 8 [(B "identifier" 59 160 162 8 8 [])]); (B "value_comparison_operator" 60 163 164 8 8 [(A "=" 61 163 164 8 8 [])]); (B "bound_apex_expression" 62 165 171 8 8 [(A ":" 63 165 166 8 8 []); (B "identifier" 64 166 171 8 8 [])])])] # "where_clause")]); (A "]" 65 176 177 9 9 [])] # "value")] # "declarator"); (A ";" 66 177 178 9 9 [])]); (B "local_variable_declaration" 67 184 241 11 14 [(B "type_identifier" 68 184 190 11 11 [] # "type"); (B "variable_declarator" 69 191 240 11 14 [(B "identifier" 70 191 193 11 11 [] # "name"); (B "assignment_operator" 71 194 195 11 11 [(A "=" 72 194 195 11 11 [])]); (B "field_access" 73 196 240 11 14 [(B "query_expression" 74 196 238 11 14 [(A "[" 75 196 197 11 11 []); (B "soql_query_body" 76 204 232 12 13 [(B "select_clause" 77 204 213 12 12 [(A "SELECT" 78 204 210 12 12 []); (B "field_identifier" 79 211 213 12 12 [(B "identifier" 80 211 213 12 12 [])])] # "select_clause"); (B "from_clause" 81 220 232 13 13 [(A "FROM" 82 220 224 13 13 []); (B "storage_identifier" 83 225 232 13 13 [(B "identifier" 84 225 232 13 13 [])])] # "from_clause")]); (A "]" 85 237 238 14 14 [])] # "object"); (A "." 86 238 239 14 14 []); (B "identifier" 87 239 240 14 14 [] # "field")] # "value")] # "declarator"); (A ";" 88 240 241 14 14 [])]); (B "expression_statement" 89 247 420 16 18 [(B "method_invocation" 90 247 419 16 18 [(B "field_access" 91 247 386 16 18 [(B "field_access" 92 247 367 16 18 [(B "method_invocation" 93 247 345 16 18 [(B "query_expression" 94 247 333 16 17 [(A "[" 95 247 248 16 16 []); (B "soql_query_body" 96 249 327 16 16 [(B "select_clause" 97 249 296 16 16 [(A "SELECT" 98 249 255 16 16 []); (B "field_identifier" 99 256 258 16 16 [(B "identifier" 100 256 258 16 16 [])]); (A "," 101 258 259 16 16 []); (B "field_identifier" 102 260 264 16 16 [(B "identifier" 103 260 264 16 16 [])]); (A "," 104 264 265 16 16 []); (B "field_identifier" 105 266 278 16 16 [(B "identifier" 106 266 278 16 16 [])]); (A "," 107 278 279 16 16 []); (B "field_identifier" 108 280 296 16 16 [(B "identifier" 109 280 296 16 16 [])])] # "select_clause"); (B "from_clause" 110 297 309 16 16 [(A "FROM" 111 297 301 16 16 []); (B "storage_identifier" 112 302 309 16 16 [(B "identifier" 113 302 309 16 16 [])])] # "from_clause"); (B "where_clause" 114 310 327 16 16 [(A "WHERE" 115 310 315 16 16 []); (B "comparison_expression" 116 316 327 16 16 [(B "field_identifier" 117 316 318 16 16 [(B "identifier" 118 316 318 16 16 [])]); (B "value_comparison_operator" 119 319 320 16 16 [(A "=" 120 319 320 16 16 [])]); (B "bound_apex_expression" 121 321 327 16 16 [(A ":" 122 321 322 16 16 []); (B "identifier" 123 322 327 16 16 [])])])] # "where_clause")]); (A "]" 124 332 333 17 17 [])] # "object"); (A "." 125 338 339 18 18 []); (B "identifier" 126 339 343 18 18 [] # "name"); (B "argument_list" 127 343 345 18 18 [(A "(" 128 343 344 18 18 []); (A ")" 129 344 345 18 18 [])] # "arguments")] # "object"); (A "." 130 345 346 18 18 []); (B "identifier" 131 346 367 18 18 [] # "field")] # "object"); (A "." 132 367 368 18 18 []); (B "identifier" 133 368 386 18 18 [] # "field")] # "object"); (A "." 134 386 387 18 18 []); (B "identifier" 135 387 417 18 18 [] # "name"); (B "argument_list" 136 417 419 18 18 [(A "(" 137 417 418 18 18 []); (A ")" 138 418 419 18 18 [])] # "arguments")]); (A ";" 139 419 420 18 18 [])]); (B "local_variable_declaration" 140 426 629 20 25 [(B "type_identifier" 141 426 432 20 20 [] # "type"); (B "variable_declarator" 142 433 628 20 25 [(B "identifier" 143 433 435 20 20 [] # "name"); (B "assignment_operator" 144 436 437 20 20 [(A "=" 145 436 437 20 20 [])]); (B "method_invocation" 146 438 628 20 25 [(B "field_access" 147 438 595 20 25 [(B "field_access" 148 438 576 20 25 [(B "method_invocation" 149 438 554 20 25 [(B "query_expression" 150 438 542 20 24 [(A "[" 151 438 439 20 20 []); (B "soql_query_body" 152 446 536 21 23 [(B "select_clause" 153 446 493 21 21 [(A "SELECT" 154 446 452 21 21 []); (B "field_identifier" 155 453 455 21 21 [(B "identifier" 156 453 455 21 21 [])]); (A "," 157 455 456 21 21 []); (B "field_identifier" 158 457 461 21 21 [(B "identifier" 159 457 461 21 21 [])]); (A "," 160 461 462 21 21 []); (B "field_identifier" 161 463 475 21 21 [(B "identifier" 162 463 475 21 21 [])]); (A "," 163 475 476 21 21 []); (B "field_identifier" 164 477 493 21 21 [(B "identifier" 165 477 493 21 21 [])])] # "select_clause"); (B "from_clause" 166 500 512 22 22 [(A "FROM" 167 500 504 22 22 []); (B "storage_identifier" 168 505 512 22 22 [(B "identifier" 169 505 512 22 22 [])])] # "from_clause"); (B "where_clause" 170 519 536 23 23 [(A "WHERE" 171 519 524 23 23 []); (B "comparison_expression" 172 525 536 23 23 [(B "field_identifier" 173 525 527 23 23 [(B "identifier" 174 525 527 23 23 [])]); (B "value_comparison_operator" 175 528 529 23 23 [(A "=" 176 528 529 23 23 [])]); (B "bound_apex_expression" 177 530 536 23 23 [(A ":" 178 530 531 23 23 []); (B "identifier" 179 531 536 23 23 [])])])] # "where_clause")]); (A "]" 180 541 542 24 24 [])] # "object"); (A "." 181 547 548 25 25 []); (B "identifier" 182 548 552 25 25 [] # "name"); (B "argument_list" 183 552 554 25 25 [(A "(" 184 552 553 25 25 []); (A ")" 185 553 554 25 25 [])] # "arguments")] # "object"); (A "." 186 554 555 25 25 []); (B "identifier" 187 555 576 25 25 [] # "field")] # "object"); (A "." 188 576 577 25 25 []); (B "identifier" 189 577 595 25 25 [] # "field")] # "object"); (A "." 190 595 596 25 25 []); (B "identifier" 191 596 626 25 25 [] # "name"); (B "argument_list" 192 626 628 25 25 [(A "(" 193 626 627 25 25 []); (A ")" 194 627 628 25 25 [])] # "arguments")] # "value")] # "declarator"); (A ";" 195 628 629 25 25 [])]); (B "local_variable_declaration" 196 635 762 27 32 [(B "type_identifier" 197 635 641 27 27 [] # "type"); (B "variable_declarator" 198 642 761 27 32 [(B "identifier" 199 642 644 27 27 [] # "name"); (B "assignment_operator" 200 645 646 27 27 [(A "=" 201 645 646 27 27 [])]); (B "field_access" 202 647 761 27 32 [(B "query_expression" 203 647 751 27 31 [(A "[" 204 647 648 27 27 []); (B "soql_query_body" 205 655 745 28 30 [(B "select_clause" 206 655 702 28 28 [(A "SELECT" 207 655 661 28 28 []); (B "field_identifier" 208 662 664 28 28 [(B "identifier" 209 662 664 28 28 [])]); (A "," 210 664 665 28 28 []); (B "field_identifier" 211 666 670 28 28 [(B "identifier" 212 666 670 28 28 [])]); (A "," 213 670 671 28 28 []); (B "field_identifier" 214 672 684 28 28 [(B "identifier" 215 672 684 28 28 [])]); (A "," 216 684 685 28 28 []); (B "field_identifier" 217 686 702 28 28 [(B "identifier" 218 686 702 28 28 [])])] # "select_clause"); (B "from_clause" 219 709 721 29 29 [(A "FROM" 220 709 713 29 29 []); (B "storage_identifier" 221 714 721 29 29 [(B "identifier" 222 714 721 29 29 [])])] # "from_clause"); (B "where_clause" 223 728 745 30 30 [(A "WHERE" 224 728 733 30 30 []); (B "comparison_expression" 225 734 745 30 30 [(B "field_identifier" 226 734 736 30 30 [(B "identifier" 227 734 736 30 30 [])]); (B "value_comparison_operator" 228 737 738 30 30 [(A "=" 229 737 738 30 30 [])]); (B "bound_apex_expression" 230 739 745 30 30 [(A ":" 231 739 740 30 30 []); (B "identifier" 232 740 745 30 30 [])])])] # "where_clause")]); (A "]" 233 750 751 31 31 [])] # "object"); (A "." 234 756 757 32 32 []); (B "identifier" 235 757 761 32 32 [] # "field")] # "value")] # "declarator"); (A ";" 236 761 762 32 32 [])]); (A "}" 237 765 766 33 33 [])]); (A "}" 238 767 768 34 34 [])] # "body")])]).
Example static_soql_chaining : as_expected static_soql_chaining_source static_soql_chaining_tree (U "class Chaining {
  {
    [SELECT Id, Name FROM acc].a;

    String g1 = [
      SELECT Id, Name, One_Field__c, Another_Field__c
      FROM Account
      WHERE Id = :accId
    ];

    String g2 = [SELECT Id FROM Account].a;

    [
      SELECT Id, Name, One_Field__c, Another_Field__c
      FROM Account
      WHERE Id = :accId
    ]
      .Name()
      .bbbbbbbbbbbbbbbbbbbbb
      .cccccccccccccccccc
      .aaaaaaaaaaaaaaaaaaaaaaaaaaaaaa();

    String g3 =
      [
        SELECT Id, Name, One_Field__c, Another_Field__c
        FROM Account
        WHERE Id = :accId
      ]
        .Name()
        .bbbbbbbbbbbbbbbbbbbbb
        .cccccccccccccccccc
        .aaaaaaaaaaaaaaaaaaaaaaaaaaaaaa();

    String g3 =
      [
        SELECT Id, Name, One_Field__c, Another_Field__c
        FROM Account
        WHERE Id = :accId
      ]
        .Name;
  }
}
").
Proof. apply run_test_ok. vm_compute. reflexivity. Qed.

(* tests/static/super_this_chaining.in *)
Definition static_super_this_chaining_source : ustr := U "class Chaining {
  {
    [SELECT Id, Name FROM acc]
    .super.a;

    a
      ?.super.DuperVeryInsanelyLongVariableNameThatWillSurelyBreak
      .getOneSet()
      .getAnotherSet()
      .getYetAnotherSet();

    a.super.DuperVeryInsanelyLongVariableNameThatWillSurelyBreak
      .getOneSet()
      .getAnotherSet()
      .getYetAnotherSet();

    super.DuperVeryInsanelyLongVariableNameThatWillSurelyBreak
      .getOneSet()
      .getAnotherSet()
      .getYetAnotherSet();

    super?.superDuperVeryInsanelyLongVariableNameThatWillSurelyBreak
      .getOneSet()
      .getAnotherSet()
      .getYetAnotherSet();

    a.this
      ?.superDuperVeryInsanelyLongVariableNameThatWillSurelyBreak
      .getOneSet()
      .getAnotherSet()
      .getYetAnotherSet();

    this?.superDuperVeryInsanelyLongVariableNameThatWillSurelyBreak
      .getOneSet()
      .getAnotherSet()
      .getYetAnotherSet();

    t.a().b().c().d();
  }
}
".
Definition static_super_this_chaining_tree : span := (B "parser_output" 1 0 931 0 40 [(B "class_declaration" 2 0 930 0 39 [(A "class" 3 0 5 0 0 []); (B "identifier" 4 6 14 0 0 [] # "name"); (B "class_body" 5 15 930 0 39 [(A "{" 6 15 16 0 0 []); (B "block" 7 19 928 1 38 [(A "{" 8 19 20 1 1 []); (B "expression_statement" 9 25 65 2 3 [(B "field_access" 10 25 64 2 3 [(B "field_access" 11 25 62 2 3 [(B "query_expression" 12 25 51 2 2 [(A "[" 13 25 26 2 2 []); (B "soql_query_body" 14 26 50 2 2 [(B "select_clause" 15 26 41 2 2 [(A "SELECT" 16 26 32 2 2 []); (B "field_identifier" 17 33 35 2 2 [(B "identifier" 18 33 35 2 2 [])]); (A "," 19 35 36 2 2 []); (B "field_identifier" 20 37 41 2 2 [(B "identifier" 21 37 41 2 2 [])])] # "select_clause"); (B "from_clause" 22 42 50 2 2 [(A "FROM" 23 42 46 2 2 []); (B "storage_identifier" 24 47 50 2 2 [(B "identifier" 25 47 50 2 2 [])])] # "from_clause")]); (A "]" 26 50 51 2 2 [])] # "object"); (A "." 27 56 57 3 3 []); (B "identifier" 28 57 62 3 3 [] # "field")] # "object"); (A "." 29 62 63 3 3 []); (B "identifier" 30 63 64 3 3 [] # "field")]); (A ";" 31 64 65 3 3 [])]); (B "expression_statement" 32 71 208 5 9 [(B "method_invocation" 33 71 207 5 9 [(B "method_invocation" 34 71 181 5 8 [(B "method_invocation" 35 71 158 5 7 [(B "field_access" 36 71 139 5 6 [(B "field_access" 37 71 86 5 6 [(B "identifier" 38 71 72 5 5 [] # "object"); (B "safe_navigation_operator" 39 79 81 6 6 [(A "?." 40 79 81 6 6 [])]); (B "identifier" 41 81 86 6 6 [] # "field")] # "object"); (A "." 42 86 87 6 6 []); (B "identifier" 43 87 139 6 6 [] # "field")] # "object"); (A "." 44 146 147 7 7 []); (B "identifier" 45 147 156 7 7 [] # "name"); (B "argument_list" 46 156 158 7 7 [(A "(" 47 156 157 7 7 []); (A ")" 48 157 158 7 7 [])] # "arguments")] # "object"); (A "." 49 165 166 8 8 []); (B "identifier" 50 166 179 8 8 [] # "name"); (B "argument_list" 51 179 181 8 8 [(A "(" 52 179 180 8 8 []); (A ")" 53 180 181 8 8 [])] # "arguments")] # "object"); (A "." 54 188 189 9 9 []); (B "identifier" 55 189 205 9 9 [] # "name"); (B "argument_list" 56 205 207 9 9 [(A "(" 57 205 206 9 9 []); (A ")" 58 206 207 9 9 [])] # "arguments")]); (A ";" 59 207 208 9 9 [])]); (B "expression_statement" 60 214 343 11 14 [(B "method_invocation" 61 214 342 11 14 [(B "method_invocation" 62 214 316 11 13 [(B "method_invocation" 63 214 293 11 12 [(B "field_access" 64 214 274 11 11 [(B "field_access" 65 214 221 11 11 [(B "identifier" 66 214 215 11 11 [] # "object"); (A "." 67 215 216 11 11 []); (B "identifier" 68 216 221 11 11 [] # "field")] # "object"); (A "." 69 221 222 11 11 []); (B "identifier" 70 222 274 11 11 [] # "field")] # "object"); (A "." 71 281 282 12 12 []); (B "identifier" 72 282 291 12 12 [] # "name"); (B "argument_list" 73 291 293 12 12 [(A "(" 74 291 292 12 12 []); (A ")" 75 292 293 12 12 [])] # "arguments")] # "object"); (A "." 76 300 301 13 13 []); (B "identifier" 77 301 314 13 13 [] # "name"); (B "argument_list" 78 314 316 13 13 [(A "(" 79 314 315 13 13 []); (A ")" 80 315 316 13 13 [])] # "arguments")] # "object"); (A "." 81 323 324 14 14 []); (B "identifier" 82 324 340 14 14 [] # "name"); (B "argument_list" 83 340 342 14 14 [(A "(" 84 340 341 14 14 []); (A ")" 85 341 342 14 14 [])] # "arguments")]); (A ";" 86 342 343 14 14 [])]); (B "expression_statement" 87 349 476 16 19 [(B "method_invocation" 88 349 475 16 19 [(B "method_invocation" 89 349 449 16 18 [(B "method_invocation" 90 349 426 16 17 [(B "field_access" 91 349 407 16 16 [(B "super" 92 349 354 16 16 [] # "object"); (A "." 93 354 355 16 16 []); (B "identifier" 94 355 407 16 16 [] # "field")] # "object"); (A "." 95 414 415 17 17 []); (B "identifier" 96 415 424 17 17 [] # "name"); (B "argument_list" 97 424 426 17 17 [(A "(" 98 424 425 17 17 []); (A ")" 99 425 426 17 17 [])] # "arguments")] # "object"); (A "." 100 433 434 18 18 []); (B "identifier" 101 434 447 18 18 [] # "name"); (B "argument_list" 102 447 449 18 18 [(A "(" 103 447 448 18 18 []); (A ")" 104 448 449 18 18 [])] # "arguments")] # "object"); (A "." 105 456 457 19 19 []); (B "identifier" 106 457 473 19 19 [] # "name"); (B "argument_list" 107 473 475 19 19 [(A "(" 108 473 474 19 19 []); (A ")" 109 474 475 19 19 [])] # "arguments")]); (A ";" 110 475 476 19 19 [])]); (B "expression_statement" 111 482 615 21 24 [(B "method_invocation" 112 482 614 21 24 [(B "method_invocation" 113 482 588 21 23 [(B "method_invocation" 114 482 565 21 22 [(B "field_access" 115 482 546 21 21 [(B "super" 116 482 487 21 21 [] # "object"); (B "safe_navigation_operator" 117 487 489 21 21 [(A "?." 118 487 489 21 21 [])]); (B "identifier" 119 489 546 21 21 [] # "field")] # "object"); (A "." 120 553 554 22 22 []); (B "identifier" 121 554 563 22 22 [] # "name"); (B "argument_list" 122 563 565 22 22 [(A "(" 123 563 564 22 22 []); (A ")" 124 564 565 22 22 [])] # "arguments")] # "object"); (A "." 125 572 573 23 23 []); (B "identifier" 126 573 586 23 23 [] # "name"); (B "argument_list" 127 586 588 23 23 [(A "(" 128 586 587 23 23 []); (A ")" 129 587 588 23 23 [])] # "arguments")] # "object"); (A "." 130 595 596 24 24 []); (B "identifier" 131 596 612 24 24 [] # "name"); (B "argument_list" 132 612 614 24 24 [(A "(" 133 612 613 24 24 []); (A ")" 134 613 614 24 24 [])] # "arguments")]); (A ";" 135 614 615 24 24 [])]); (B "expression_statement" 136 621 762 26 30 [(B "method_invocation" 137 621 761 26 30 [(B "method_invocation" 138 621 735 26 29 [(B "method_invocation" 139 621 712 26 28 [(B "field_access" 140 621 693 26 27 [(B "field_access" 141 621 627 26 26 [(B "identifier" 142 621 622 26 26 [] # "object"); (A "." 143 622 623 26 26 []); (B "this" 144 623 627 26 26 [] # "field")] # "object"); (B "safe_navigation_operator" 145 634 636 27 27 [(A "?." 146 634 636 27 27 [])]); (B "identifier" 147 636 693 27 27 [] # "field")] # "object"); (A "." 148 700 701 28 28 []); (B "identifier" 149 701 710 28 28 [] # "name"); (B "argument_list" 150 710 712 28 28 [(A "(" 151 710 711 28 28 []); (A ")" 152 711 712 28 28 [])] # "arguments")] # "object"); (A "." 153 719 720 29 29 []); (B "identifier" 154 720 733 29 29 [] # "name"); (B "argument_list" 155 733 735 29 29 [(A "(" 156 733 734 29 29 []); (A ")" 157 734 735 29 29 [])] # "arguments")] # "object"); (A "." 158 742 743 30 30 []); (B "identifier" 159 743 759 30 30 [] # "name"); (B "argument_list" 160 759 761 30 30 [(A "(" 161 759 760 30 30 []); (A ")" 162 760 761 30 30 [])] # "arguments")]); (A ";" 163 761 762 30 30 [])]); (B "expression_statement" 164 768 900 32 35 [(B "method_invocation" 165 768 899 32 35 [(B "method_invocation" 166 768 873 32 34 [(B "method_invocation" 167 768 850 32 33 [(B "field_access" 168 768 831 32 32 [(B "this" 169 768 772 32 32 [] # "object"); (B "safe_navigation_operator" 170 772 774 32 32 [(A "?." 171 772 774 32 32 [])]); (B "identifier" 172 774 831 32 32 [] # "field")] # "object"); (A "." 173 838 839 33 33 []); (B "identifier" 174 839 848 33 33 [] # "name"); (B "argument_list" 175 848 850 33 33 [(A "(" 176 848 849 33 33 []); (A ")" 177 849 850 33 33 [])] # "arguments")] # "object"); (A "." 178 857 858 34 34 []); (B "identifier" 179 858 871 34 34 [] # "name"); (B "argument_list" 180 871 873 34 34 [(A "(" 181 871 872 34 34 []); (A ")" 182 872 873 34 34 [])] # "arguments")] # "object"); (A "." 183 880 881 35 35 []); (B "identifier" 184 881 897 35 35 [] # "name"); (B "argument_list" 185 897 899 35 35 [(A "(" 186 897 898 35 35 []); (A ")" 187 898 899 35 35 [])] # "arguments")]); (A ";" 188 899 900 35 35 [])]); (B "expression_statement" 189 906 924 37 37 [(B "method_invocation" 190 906 923 37 37 [(B "method_invocation" 191 906 919 37 37 [(B "method_invocation" 192 906 915 37 37 [(B "method_invocation" 193 906 911 37 37 [(B "identifier" 194 906 907 37 37 [] # "object"); (A "." 195 907 908 37 37 []); (B "identifier" 196 908 909 37 37 [] # "name"); (B "argument_list" 197 909 911 37 37 [(A "(" 198 909 910 37 37 []); (A ")" 199 910 911 37 37 [])] # "arguments")] # "object"); (A "." 200 911 912 37 37 []); (B "identifier" 201 912 913 37 37 [] # "name"); (B "argument_list" 202 913 915 37 37 [(A "(" 203 913 914 37 37 []); (A ")" 204 914 915 37 37 [])] # "arguments")] # "object"); (A "." 205 915 916 37 37 []); (B "identifier" 206 916 917 37 37 [] # "name"); (B "argument_list" 207 917 919 37 37 [(A "(" 208 917 918 37 37 []); (A ")" 209 918 919 37 37 [])] # "arguments")] # "object"); (A "." 210 919 920 37 37 []); (B "identifier" 211 920 921 37 37 [] # "name"); (B "argument_list" 212 921 923 37 37 [(A "(" 213 921 922 37 37 []); (A ")" 214 922 923 37 37 [])] # "arguments")]); (A ";" 215 923 924 37 37 [])]); (A "}" 216 927 928 38 38 [])]); (A "}" 217 929 930 39 39 [])] # "body")])]).
Example static_super_this_chaining : as_expected static_super_this_chaining_source static_super_this_chaining_tree (U "class Chaining {
  {
    [SELECT Id, Name FROM acc].super.a;

    a
      ?.super
      .DuperVeryInsanelyLongVariableNameThatWillSurelyBreak
      .getOneSet()
      .getAnotherSet()
      .getYetAnotherSet();

    a
      .super
      .DuperVeryInsanelyLongVariableNameThatWillSurelyBreak
      .getOneSet()
      .getAnotherSet()
      .getYetAnotherSet();

    super
      .DuperVeryInsanelyLongVariableNameThatWillSurelyBreak
      .getOneSet()
      .getAnotherSet()
      .getYetAnotherSet();

    super
      ?.superDuperVeryInsanelyLongVariableNameThatWillSurelyBreak
      .getOneSet()
      .getAnotherSet()
      .getYetAnotherSet();

    a
      .this
      ?.superDuperVeryInsanelyLongVariableNameThatWillSurelyBreak
      .getOneSet()
      .getAnotherSet()
      .getYetAnotherSet();

    this
      ?.superDuperVeryInsanelyLongVariableNameThatWillSurelyBreak
      .getOneSet()
      .getAnotherSet()
      .getYetAnotherSet();

    t.a().b().c().d();
  }
}
").
Proof. apply run_test_ok. vm_compute. reflexivity. Qed.

(* tests/static/super_this_keyword.in *)
Definition static_super_this_keyword_source : ustr := U "class SuperThis {
  {
    [SELECT Id, Name FROM acc].super.a;

    a?.Super.Set();

    Super.a.set();

    a.tHis.set();
    a.THis.set();

    this.a.set();
    This.a.set();
  }
}
".
Definition static_super_this_keyword_tree : span := (B "parser_output" 1 0 183 0 15 [(B "class_declaration" 2 0 182 0 14 [(A "class" 3 0 5 0 0 []); (B "identifier" 4 6 15 0 0 [] # "name"); (B "class_body" 5 16 182 0 14 [(A "{" 6 16 17 0 0 []); (B "block" 7 20 180 1 13 [(A "{" 8 20 21 1 1 []); (B "expression_statement" 9 26 61 2 2 [(B "field_access" 10 26 60 2 2 [(B "field_access" 11 26 58 2 2 [(B "query_expression" 12 26 52 2 2 [(A "[" 13 26 27 2 2 []); (B "soql_query_body" 14 27 51 2 2 [(B "select_clause" 15 27 42 2 2 [(A "SELECT" 16 27 33 2 2 []); (B "field_identifier" 17 34 36 2 2 [(B "identifier" 18 34 36 2 2 [])]); (A "," 19 36 37 2 2 []); (B "field_identifier" 20 38 42 2 2 [(B "identifier" 21 38 42 2 2 [])])] # "select_clause"); (B "from_clause" 22 43 51 2 2 [(A "FROM" 23 43 47 2 2 []); (B "storage_identifier" 24 48 51 2 2 [(B "identifier" 25 48 51 2 2 [])])] # "from_clause")]); (A "]" 26 51 52 2 2 [])] # "object"); (A "." 27 52 53 2 2 []); (B "identifier" 28 53 58 2 2 [] # "field")] # "object"); (A "." 29 58 59 2 2 []); (B "identifier" 30 59 60 2 2 [] # "field")]); (A ";" 31 60 61 2 2 [])]); (B "expression_statement" 32 67 82 4 4 [(B "method_invocation" 33 67 81 4 4 [(B "field_access" 34 67 75 4 4 [(B "identifier" 35 67 68 4 4 [] # "object"); (B "safe_navigation_operator" 36 68 70 4 4 [(A "?." 37 68 70 4 4 [])]); (B "identifier" 38 70 75 4 4 [] # "field")] # "object"); (A "." 39 75 76 4 4 []); (B "identifier" 40 76 79 4 4 [] # "name"); (B "argument_list" 41 79 81 4 4 [(A "(" 42 79 80 4 4 []); (A ")" 43 80 81 4 4 [])] # "arguments")]); (A ";" 44 81 82 4 4 [])]); (B "expression_statement" 45 88 102 6 6 [(B "method_invocation" 46 88 101 6 6 [(B "field_access" 47 88 95 6 6 [(B "super" 48 88 93 6 6 [] # "object"); (A "." 49 93 94 6 6 []); (B "identifier" 50 94 95 6 6 [] # "field")] # "object"); (A "." 51 95 96 6 6 []); (B "identifier" 52 96 99 6 6 [] # "name"); (B "argument_list" 53 99 101 6 6 [(A "(" 54 99 100 6 6 []); (A ")" 55 100 101 6 6 [])] # "arguments")]); (A ";" 56 101 102 6 6 [])]); (B "expression_statement" 57 108 121 8 8 [(B "method_invocation" 58 108 120 8 8 [(B "field_access" 59 108 114 8 8 [(B "identifier" 60 108 109 8 8 [] # "object"); (A "." 61 109 110 8 8 []); (B "this" 62 110 114 8 8 [] # "field")] # "object"); (A "." 63 114 115 8 8 []); (B "identifier" 64 115 118 8 8 [] # "name"); (B "argument_list" 65 118 120 8 8 [(A "(" 66 118 119 8 8 []); (A ")" 67 119 120 8 8 [])] # "arguments")]); (A ";" 68 120 121 8 8 [])]); (B "expression_statement" 69 126 139 9 9 [(B "method_invocation" 70 126 138 9 9 [(B "field_access" 71 126 132 9 9 [(B "identifier" 72 126 127 9 9 [] # "object"); (A "." 73 127 128 9 9 []); (B "this" 74 128 132 9 9 [] # "field")] # "object"); (A "." 75 132 133 9 9 []); (B "identifier" 76 133 136 9 9 [] # "name"); (B "argument_list" 77 136 138 9 9 [(A "(" 78 136 137 9 9 []); (A ")" 79 137 138 9 9 [])] # "arguments")]); (A ";" 80 138 139 9 9 [])]); (B "expression_statement" 81 145 158 11 11 [(B "method_invocation" 82 145 157 11 11 [(B "field_access" 83 145 151 11 11 [(B "this" 84 145 149 11 11 [] # "object"); (A "." 85 149 150 11 11 []); (B "identifier" 86 150 151 11 11 [] # "field")] # "object"); (A "." 87 151 152 11 11 []); (B "identifier" 88 152 155 11 11 [] # "name"); (B "argument_list" 89 155 157 11 11 [(A "(" 90 155 156 11 11 []); (A ")" 91 156 157 11 11 [])] # "arguments")]); (A ";" 92 157 158 11 11 [])]); (B "expression_statement" 93 163 176 12 12 [(B "method_invocation" 94 163 175 12 12 [(B "field_access" 95 163 169 12 12 [(B "this" 96 163 167 12 12 [] # "object"); (A "." 97 167 168 12 12 []); (B "identifier" 98 168 169 12 12 [] # "field")] # "object"); (A "." 99 169 170 12 12 []); (B "identifier" 100 170 173 12 12 [] # "name"); (B "argument_list" 101 173 175 12 12 [(A "(" 102 173 174 12 12 []); (A ")" 103 174 175 12 12 [])] # "arguments")]); (A ";" 104 175 176 12 12 [])]); (A "}" 105 179 180 13 13 [])]); (A "}" 106 181 182 14 14 [])] # "body")])]).
Example static_super_this_keyword : as_expected static_super_this_keyword_source static_super_this_keyword_tree (U "class SuperThis {
  {
    [SELECT Id, Name FROM acc].super.a;

    a?.Super.Set();

    super.a.set();

    a.this.set();
    a.this.set();

    this.a.set();
    this.a.set();
  }
}
").
Proof. apply run_test_ok. vm_compute. reflexivity. Qed.

(* tests/static/variable_declaration.in *)
Definition static_variable_declaration_source : ustr := U "class A {
  {
    Account[] account =
      new Account[]{
        new Account(Id = accountId, Name = 'Inner Acme One'),
        new Account(Id = accountId, Name = 'Inner Acme Two')
      };

    List<Account> accounts =
      [SELECT Id FROM Account WHERE CreatedDate = LAST_N_DAYS:60];

    List<Account> accounts =
      [
        SELECT Id, Name, Date, ABC__c
        FROM Account
        WHERE CreatedDate = LAST_N_DAYS:60
      ];

    Integer[] b = new List<Integer>{};

    Id[] accountIds = new Id[]{ accountId };

    Map<String, Integer > intsBymap
                = new Map<String, Integer>
                 {    'hello'    => 1  ,
                  'world' =>    2    }   ;

  }
}
".
Definition static_variable_declaration_tree : span := (B "parser_output" 1 0 694 0 29 [(B "class_declaration" 2 0 693 0 28 [(A "class" 3 0 5 0 0 []); (B "identifier" 4 6 7 0 0 [] # "name"); (B "class_body" 5 8 693 0 28 [(A "{" 6 8 9 0 0 []); (B "block" 7 12 691 1 27 [(A "{" 8 12 13 1 1 []); (B "local_variable_declaration" 9 18 190 2 6 [(B "array_type" 10 18 27 2 2 [(B "type_identifier" 11 18 25 2 2 [] # "element"); (B "dimensions" 12 25 27 2 2 [(A "[" 13 25 26 2 2 []); (A "]" 14 26 27 2 2 [])] # "dimensions")] # "type"); (B "variable_declarator" 15 28 189 2 6 [(B "identifier" 16 28 35 2 2 [] # "name"); (B "assignment_operator" 17 36 37 2 2 [(A "=" 18 36 37 2 2 [])]); (B "array_creation_expression" 19 44 189 3 6 [(A "new" 20 44 47 3 3 []); (B "type_identifier" 21 48 55 3 3 [] # "type"); (B "dimensions" 22 55 57 3 3 [(A "[" 23 55 56 3 3 []); (A "]" 24 56 57 3 3 [])] # "dimensions"); (B "array_initializer" 25 57 189 3 6 [(A "{" 26 57 58 3 3 []); (B "object_creation_expression" 27 67 119 4 4 [(A "new" 28 67 70 4 4 []); (B "type_identifier" 29 71 78 4 4 [] # "type"); (B "argument_list" 30 78 119 4 4 [(A "(" 31 78 79 4 4 []); (B "assignment_expression" 32 79 93 4 4 [(B "identifier" 33 79 81 4 4 [] # "left"); (B "assignment_operator" 34 82 83 4 4 [(A "=" 35 82 83 4 4 [])] # "operator"); (B "identifier" 36 84 93 4 4 [] # "right")]); (A "," 37 93 94 4 4 []); (B "assignment_expression" 38 95 118 4 4 [(B "identifier" 39 95 99 4 4 [] # "left"); (B "assignment_operator" 40 100 101 4 4 [(A "=" 41 100 101 4 4 [])] # "operator"); (B "string_literal" 42 102 118 4 4 [] # "right")]); (A ")" 43 118 119 4 4 [])] # "arguments")]); (A "," 44 119 120 4 4 []); (B "object_creation_expression" 45 129 181 5 5 [(A "new" 46 129 132 5 5 []); (B "type_identifier" 47 133 140 5 5 [] # "type"); (B "argument_list" 48 140 181 5 5 [(A "(" 49 140 141 5 5 []); (B "assignment_expression" 50 141 155 5 5 [(B "identifier" 51 141 143 5 5 [] # "left"); (B "assignment_operator" 52 144 145 5 5 [(A "=" 53 144 145 5 5 [])] # "operator"); (B "identifier" 54 146 155 5 5 [] # "right")]); (A "," 55 155 156 5 5 []); (B "assignment_expression" 56 157 180 5 5 [(B "identifier" 57 157 161 5 5 [] # "left"); (B "assignment_operator" 58 162 163 5 5 [(A "=" 59 162 163 5 5 [])] # "operator"); (B "string_literal" 60 164 180 5 5 [] # "right")]); (A ")" 61 180 181 5 5 [])] # "arguments")]); (A "}" 62 188 189 6 6 [])] # "value")] # "value")] # "declarator"); (A ";" 63 189 190 6 6 [])]); (B "local_variable_declaration" 64 196 287 8 9 [(B "generic_type" 65 196 209 8 8 [(B "type_identifier" 66 196 200 8 8 []); (B "type_arguments" 67 200 209 8 8 [(A "<" 68 200 201 8 8 []); (B "type_identifier" 69 201 208 8 8 []); (A ">" 70 208 209 8 8 [])])] # "type"); (B "variable_declarator" 71 210 286 8 9 [(B "identifier" 72 210 218 8 8 [] # "name"); (B "assignment_operator" 73 219 220 8 8 [(A "=" 74 219 220 8 8 [])]); (B "query_expression" 75 227 286 9 9 [(A "[" 76 227 228 9 9 []); (B "soql_query_body" 77 228 285 9 9 [(B "select_clause" 78 228 237 9 9 [(A "SELECT" 79 228 234 9 9 []); (B "field_identifier" 80 235 237 9 9 [(B "identifier" 81 235 237 9 9 [])])] # "select_clause"); (B "from_clause" 82 238 250 9 9 [(A "FROM" 83 238 242 9 9 []); (B "storage_identifier" 84 243 250 9 9 [(B "identifier" 85 243 250 9 9 [])])] # "from_clause"); (B "where_clause" 86 251 285 9 9 [(A "WHERE" 87 251 256 9 9 []); (B "comparison_expression" 88 257 285 9 9 [(B "field_identifier" 89 257 268 9 9 [(B "identifier" 90 257 268 9 9 [])]); (B "value_comparison_operator" 91 269 270 9 9 [(A "=" 92 269 270 9 9 [])]); (B "date_literal_with_param" 93 271 285 9 9 [(B "date_literal" 94 271 282 9 9 []); (A ":" 95 282 283 9 9 []); (B "int" 96 283 285 9 9 [])])])] # "where_clause")]); (A "]" 97 285 286 9 9 [])] # "value")] # "declarator"); (A ";" 98 286 287 9 9 [])]); (B "local_variable_declaration" 99 293 436 11 16 [(B "generic_type" 100 293 306 11 11 [(B "type_identifier" 101 293 297 11 11 []); (B "type_arguments" 102 297 306 11 11 [(A "<" 103 297 298 11 11 []); (B "type_identifier" 104 298 305 11 11 []); (A ">" 105 305 306 11 11 [])])] # "type"); (B "variable_declarator" 106 307 435 11 16 [(B "identifier" 107 307 315 11 11 [] # "name"); (B "assignment_operator" 108 316 317 11 11 [(A "=" 109 316 317 11 11 [])]); (B "query_expression" 110 324 435 12 16 [(A "[" 111 324 325 12 12 []); (B "soql_query_body" 112 334 427 13 15 [(B "select_clause" 113 334 363 13 13 [(A "SELECT" 114 334 340 13 13 []); (B "field_identifier" 115 341 343 13 13 [(B "identifier" 116 341 343 13 13 [])]); (A "," 117 343 344 13 13 []); (B "field_identifier" 118 345 349 13 13 [(B "identifier" 119 345 349 13 13 [])]); (A "," 120 349 350 13 13 []); (B "field_identifier" 121 351 355 13 13 [(B "identifier" 122 351 355 13 13 [])]); (A "," 123 355 356 13 13 []); (B "field_identifier" 124 357 363 13 13 [(B "identifier" 125 357 363 13 13 [])])] # "select_clause"); (B "from_clause" 126 372 384 14 14 [(A "FROM" 127 372 376 14 14 []); (B "storage_identifier" 128 377 384 14 14 [(B "identifier" 129 377 384 14 14 [])])] # "from_clause"); (B "where_clause" 130 393 427 15 15 [(A "WHERE" 131 393 398 15 15 []); (B "comparison_expression" 132 399 427 15 15 [(B "field_identifier" 133 399 410 15 15 [(B "identifier" 134 399 410 15 15 [])]); (B "value_comparison_operator" 135 411 412 15 15 [(A "=" 136 411 412 15 15 [])]); (B "date_literal_with_param" 137 413 427 15 15 [(B "date_literal" 138 413 424 15 15 []); (A ":" 139 424 425 15 15 []); (B "int" 140 425 427 15 15 [])])])] # "where_clause")]); (A "]" 141 434 435 16 16 [])] # "value")] # "declarator"); (A ";" 142 435 436 16 16 [])]); (B "local_variable_declaration" 143 442 476 18 18 [(B "array_type" 144 442 451 18 18 [(B "type_identifier" 145 442 449 18 18 [] # "element"); (B "dimensions" 146 449 451 18 18 [(A "[" 147 449 450 18 18 []); (A "]" 148 450 451 18 18 [])] # "dimensions")] # "type"); (B "variable_declarator" 149 452 475 18 18 [(B "identifier" 150 452 453 18 18 [] # "name"); (B "assignment_operator" 151 454 455 18 18 [(A "=" 152 454 455 18 18 [])]); (B "array_creation_expression" 153 456 475 18 18 [(A "new" 154 456 459 18 18 []); (B "generic_type" 155 460 473 18 18 [(B "type_identifier" 156 460 464 18 18 []); (B "type_arguments" 157 464 473 18 18 [(A "<" 158 464 465 18 18 []); (B "type_identifier" 159 465 472 18 18 []); (A ">" 160 472 473 18 18 [])])] # "type"); (B "array_initializer" 161 473 475 18 18 [(A "{" 162 473 474 18 18 []); (A "}" 163 474 475 18 18 [])] # "value")] # "value")] # "declarator"); (A ";" 164 475 476 18 18 [])]); (B "local_variable_declaration" 165 482 522 20 20 [(B "array_type" 166 482 486 20 20 [(B "type_identifier" 167 482 484 20 20 [] # "element"); (B "dimensions" 168 484 486 20 20 [(A "[" 169 484 485 20 20 []); (A "]" 170 485 486 20 20 [])] # "dimensions")] # "type"); (B "variable_declarator" 171 487 521 20 20 [(B "identifier" 172 487 497 20 20 [] # "name"); (B "assignment_operator" 173 498 499 20 20 [(A "=" 174 498 499 20 20 [])]); (B "array_creation_expression" 175 500 521 20 20 [(A "new" 176 500 503 20 20 []); (B "type_identifier" 177 504 506 20 20 [] # "type"); (B "dimensions" 178 506 508 20 20 [(A "[" 179 506 507 20 20 []); (A "]" 180 507 508 20 20 [])] # "dimensions"); (B "array_initializer" 181 508 521 20 20 [(A "{" 182 508 509 20 20 []); (B "identifier" 183 510 519 20 20 []); (A "}" 184 520 521 20 20 [])] # "value")] # "value")] # "declarator"); (A ";" 185 521 522 20 20 [])]); (B "local_variable_declaration" 186 528 686 22 25 [(B "generic_type" 187 528 549 22 22 [(B "type_identifier" 188 528 531 22 22 []); (B "type_arguments" 189 531 549 22 22 [(A "<" 190 531 532 22 22 []); (B "type_identifier" 191 532 538 22 22 []); (A "," 192 538 539 22 22 []); (B "type_identifier" 193 540 547 22 22 []); (A ">" 194 548 549 22 22 [])])] # "type"); (B "variable_declarator" 195 550 682 22 25 [(B "identifier" 196 550 559 22 22 [] # "name"); (B "assignment_operator" 197 576 577 23 23 [(A "=" 198 576 577 23 23 [])]); (B "map_creation_expression" 199 578 682 23 25 [(A "new" 200 578 581 23 23 []); (B "generic_type" 201 582 602 23 23 [(B "type_identifier" 202 582 585 23 23 []); (B "type_arguments" 203 585 602 23 23 [(A "<" 204 585 586 23 23 []); (B "type_identifier" 205 586 592 23 23 []); (A "," 206 592 593 23 23 []); (B "type_identifier" 207 594 601 23 23 []); (A ">" 208 601 602 23 23 [])])] # "type"); (B "map_initializer" 209 620 682 24 25 [(A "{" 210 620 621 24 24 []); (B "map_key_initializer" 211 625 640 24 24 [(B "string_literal" 212 625 632 24 24 []); (A "=>" 213 636 638 24 24 []); (B "int" 214 639 640 24 24 [])]); (A "," 215 642 643 24 24 []); (B "map_key_initializer" 216 662 677 25 25 [(B "string_literal" 217 662 669 25 25 []); (A "=>" 218 670 672 25 25 []); (B "int" 219 676 677 25 25 [])]); (A "}" 220 681 682 25 25 [])] # "value")] # "value")] # "declarator"); (A ";" 221 685 686 25 25 [])]); (A "}" 222 690 691 27 27 [])]); (A "}" 223 692 693 28 28 [])] # "body")])]).
Example static_variable_declaration : as_expected static_variable_declaration_source static_variable_declaration_tree (U "class A {
  {
    Account[] account =
      new Account[]{
        new Account(Id = accountId, Name = 'Inner Acme One'),
        new Account(Id = accountId, Name = 'Inner Acme Two')
      };

    List<Account> accounts = [
      SELECT Id
      FROM Account
      WHERE CreatedDate = LAST_N_DAYS:60
    ];

    List<Account> accounts = [
      SELECT Id, Name, Date, ABC__c
      FROM Account
      WHERE CreatedDate = LAST_N_DAYS:60
    ];

    Integer[] b = new List<Integer>{};

    Id[] accountIds = new Id[]{ accountId };

    Map<String, Integer> intsBymap =
      new Map<String, Integer>{ 'hello' => 1, 'world' => 2 };
  }
}
").
Proof. apply run_test_ok. vm_compute. reflexivity. Qed.

(* the trees of this file *)
Definition trees : list node :=
  [grow 0 static_DmlClass_source static_DmlClass_tree;
   grow 0 static_ExtendImplementClass_source static_ExtendImplementClass_tree;
   grow 0 static_NewObject_source static_NewObject_tree;
   grow 0 static_Ternary_source static_Ternary_tree;
   grow 0 static_assignment_source static_assignment_tree;
   grow 0 static_binary_exp_source static_binary_exp_tree;
   grow 0 static_binary_exp_and_soql_source static_binary_exp_and_soql_tree;
   grow 0 static_binary_exp_in_condition_source static_binary_exp_in_condition_tree;
   grow 0 static_binary_line_wrap_source static_binary_line_wrap_tree;
   grow 0 static_chained_method1_source static_chained_method1_tree;
   grow 0 static_chaining_and_method_arguments2_source static_chaining_and_method_arguments2_tree;
   grow 0 static_chaining_method_in_switch_source static_chaining_method_in_switch_tree;
   grow 0 static_class_declaration_wrap_source static_class_declaration_wrap_tree;
   grow 0 static_field_access_source static_field_access_tree;
   grow 0 static_field_declaration_double_indent_source static_field_declaration_double_indent_tree;
   grow 0 static_idempotent1_source static_idempotent1_tree;
   grow 0 static_idempotent2_source static_idempotent2_tree;
   grow 0 static_if_cond_wrap1_source static_if_cond_wrap1_tree;
   grow 0 static_method_chaining_nested_arguments_source static_method_chaining_nested_arguments_tree;
   grow 0 static_nested_wrappable_source static_nested_wrappable_tree;
   grow 0 static_punc_and_comment_flip_source static_punc_and_comment_flip_tree;
   grow 0 static_return_wrapping_source static_return_wrapping_tree;
   grow 0 static_soql_and_chain_methods_source static_soql_and_chain_methods_tree;
   grow 0 static_soql_chaining_source static_soql_chaining_tree;
   grow 0 static_super_this_chaining_source static_super_this_chaining_tree;
   grow 0 static_super_this_keyword_source static_super_this_keyword_tree;
   grow 0 static_variable_declaration_source static_variable_declaration_tree].
