(** Generated by tools/gen_cvss4.py from cvss/src/v4/scoring/lookup.rs:8-277: the
    score of each MacroVector (EQ1..EQ6), in tenths. This is also the table published
    with CVSS v4.0 (cvss_lookup.js), which the specification uses. *)
From Coq Require Import List ZArith.
Import ListNotations.
Local Open Scope Z_scope.
Definition macro_scores : list (nat * nat * nat * nat * nat * nat * Z) :=
  [
   (0%nat, 0%nat, 0%nat, 0%nat, 0%nat, 0%nat, 100);
   (0%nat, 0%nat, 0%nat, 0%nat, 0%nat, 1%nat, 99);
   (0%nat, 0%nat, 0%nat, 0%nat, 1%nat, 0%nat, 98);
   (0%nat, 0%nat, 0%nat, 0%nat, 1%nat, 1%nat, 95);
   (0%nat, 0%nat, 0%nat, 0%nat, 2%nat, 0%nat, 95);
   (0%nat, 0%nat, 0%nat, 0%nat, 2%nat, 1%nat, 92);
   (0%nat, 0%nat, 0%nat, 1%nat, 0%nat, 0%nat, 100);
   (0%nat, 0%nat, 0%nat, 1%nat, 0%nat, 1%nat, 96);
   (0%nat, 0%nat, 0%nat, 1%nat, 1%nat, 0%nat, 93);
   (0%nat, 0%nat, 0%nat, 1%nat, 1%nat, 1%nat, 87);
   (0%nat, 0%nat, 0%nat, 1%nat, 2%nat, 0%nat, 91);
   (0%nat, 0%nat, 0%nat, 1%nat, 2%nat, 1%nat, 81);
   (0%nat, 0%nat, 0%nat, 2%nat, 0%nat, 0%nat, 93);
   (0%nat, 0%nat, 0%nat, 2%nat, 0%nat, 1%nat, 90);
   (0%nat, 0%nat, 0%nat, 2%nat, 1%nat, 0%nat, 89);
   (0%nat, 0%nat, 0%nat, 2%nat, 1%nat, 1%nat, 80);
   (0%nat, 0%nat, 0%nat, 2%nat, 2%nat, 0%nat, 81);
   (0%nat, 0%nat, 0%nat, 2%nat, 2%nat, 1%nat, 68);
   (0%nat, 0%nat, 1%nat, 0%nat, 0%nat, 0%nat, 98);
   (0%nat, 0%nat, 1%nat, 0%nat, 0%nat, 1%nat, 95);
   (0%nat, 0%nat, 1%nat, 0%nat, 1%nat, 0%nat, 95);
   (0%nat, 0%nat, 1%nat, 0%nat, 1%nat, 1%nat, 92);
   (0%nat, 0%nat, 1%nat, 0%nat, 2%nat, 0%nat, 90);
   (0%nat, 0%nat, 1%nat, 0%nat, 2%nat, 1%nat, 84);
   (0%nat, 0%nat, 1%nat, 1%nat, 0%nat, 0%nat, 93);
   (0%nat, 0%nat, 1%nat, 1%nat, 0%nat, 1%nat, 92);
   (0%nat, 0%nat, 1%nat, 1%nat, 1%nat, 0%nat, 89);
   (0%nat, 0%nat, 1%nat, 1%nat, 1%nat, 1%nat, 81);
   (0%nat, 0%nat, 1%nat, 1%nat, 2%nat, 0%nat, 81);
   (0%nat, 0%nat, 1%nat, 1%nat, 2%nat, 1%nat, 65);
   (0%nat, 0%nat, 1%nat, 2%nat, 0%nat, 0%nat, 88);
   (0%nat, 0%nat, 1%nat, 2%nat, 0%nat, 1%nat, 80);
   (0%nat, 0%nat, 1%nat, 2%nat, 1%nat, 0%nat, 78);
   (0%nat, 0%nat, 1%nat, 2%nat, 1%nat, 1%nat, 70);
   (0%nat, 0%nat, 1%nat, 2%nat, 2%nat, 0%nat, 69);
   (0%nat, 0%nat, 1%nat, 2%nat, 2%nat, 1%nat, 48);
   (0%nat, 0%nat, 2%nat, 0%nat, 0%nat, 1%nat, 92);
   (0%nat, 0%nat, 2%nat, 0%nat, 1%nat, 1%nat, 82);
   (0%nat, 0%nat, 2%nat, 0%nat, 2%nat, 1%nat, 72);
   (0%nat, 0%nat, 2%nat, 1%nat, 0%nat, 1%nat, 79);
   (0%nat, 0%nat, 2%nat, 1%nat, 1%nat, 1%nat, 69);
   (0%nat, 0%nat, 2%nat, 1%nat, 2%nat, 1%nat, 50);
   (0%nat, 0%nat, 2%nat, 2%nat, 0%nat, 1%nat, 69);
   (0%nat, 0%nat, 2%nat, 2%nat, 1%nat, 1%nat, 55);
   (0%nat, 0%nat, 2%nat, 2%nat, 2%nat, 1%nat, 27);
   (0%nat, 1%nat, 0%nat, 0%nat, 0%nat, 0%nat, 99);
   (0%nat, 1%nat, 0%nat, 0%nat, 0%nat, 1%nat, 97);
   (0%nat, 1%nat, 0%nat, 0%nat, 1%nat, 0%nat, 95);
   (0%nat, 1%nat, 0%nat, 0%nat, 1%nat, 1%nat, 92);
   (0%nat, 1%nat, 0%nat, 0%nat, 2%nat, 0%nat, 92);
   (0%nat, 1%nat, 0%nat, 0%nat, 2%nat, 1%nat, 85);
   (0%nat, 1%nat, 0%nat, 1%nat, 0%nat, 0%nat, 95);
   (0%nat, 1%nat, 0%nat, 1%nat, 0%nat, 1%nat, 91);
   (0%nat, 1%nat, 0%nat, 1%nat, 1%nat, 0%nat, 90);
   (0%nat, 1%nat, 0%nat, 1%nat, 1%nat, 1%nat, 83);
   (0%nat, 1%nat, 0%nat, 1%nat, 2%nat, 0%nat, 84);
   (0%nat, 1%nat, 0%nat, 1%nat, 2%nat, 1%nat, 71);
   (0%nat, 1%nat, 0%nat, 2%nat, 0%nat, 0%nat, 92);
   (0%nat, 1%nat, 0%nat, 2%nat, 0%nat, 1%nat, 81);
   (0%nat, 1%nat, 0%nat, 2%nat, 1%nat, 0%nat, 82);
   (0%nat, 1%nat, 0%nat, 2%nat, 1%nat, 1%nat, 71);
   (0%nat, 1%nat, 0%nat, 2%nat, 2%nat, 0%nat, 72);
   (0%nat, 1%nat, 0%nat, 2%nat, 2%nat, 1%nat, 53);
   (0%nat, 1%nat, 1%nat, 0%nat, 0%nat, 0%nat, 95);
   (0%nat, 1%nat, 1%nat, 0%nat, 0%nat, 1%nat, 93);
   (0%nat, 1%nat, 1%nat, 0%nat, 1%nat, 0%nat, 92);
   (0%nat, 1%nat, 1%nat, 0%nat, 1%nat, 1%nat, 85);
   (0%nat, 1%nat, 1%nat, 0%nat, 2%nat, 0%nat, 85);
   (0%nat, 1%nat, 1%nat, 0%nat, 2%nat, 1%nat, 73);
   (0%nat, 1%nat, 1%nat, 1%nat, 0%nat, 0%nat, 92);
   (0%nat, 1%nat, 1%nat, 1%nat, 0%nat, 1%nat, 82);
   (0%nat, 1%nat, 1%nat, 1%nat, 1%nat, 0%nat, 80);
   (0%nat, 1%nat, 1%nat, 1%nat, 1%nat, 1%nat, 72);
   (0%nat, 1%nat, 1%nat, 1%nat, 2%nat, 0%nat, 70);
   (0%nat, 1%nat, 1%nat, 1%nat, 2%nat, 1%nat, 59);
   (0%nat, 1%nat, 1%nat, 2%nat, 0%nat, 0%nat, 84);
   (0%nat, 1%nat, 1%nat, 2%nat, 0%nat, 1%nat, 70);
   (0%nat, 1%nat, 1%nat, 2%nat, 1%nat, 0%nat, 71);
   (0%nat, 1%nat, 1%nat, 2%nat, 1%nat, 1%nat, 52);
   (0%nat, 1%nat, 1%nat, 2%nat, 2%nat, 0%nat, 50);
   (0%nat, 1%nat, 1%nat, 2%nat, 2%nat, 1%nat, 30);
   (0%nat, 1%nat, 2%nat, 0%nat, 0%nat, 1%nat, 86);
   (0%nat, 1%nat, 2%nat, 0%nat, 1%nat, 1%nat, 75);
   (0%nat, 1%nat, 2%nat, 0%nat, 2%nat, 1%nat, 52);
   (0%nat, 1%nat, 2%nat, 1%nat, 0%nat, 1%nat, 71);
   (0%nat, 1%nat, 2%nat, 1%nat, 1%nat, 1%nat, 52);
   (0%nat, 1%nat, 2%nat, 1%nat, 2%nat, 1%nat, 29);
   (0%nat, 1%nat, 2%nat, 2%nat, 0%nat, 1%nat, 63);
   (0%nat, 1%nat, 2%nat, 2%nat, 1%nat, 1%nat, 29);
   (0%nat, 1%nat, 2%nat, 2%nat, 2%nat, 1%nat, 17);
   (1%nat, 0%nat, 0%nat, 0%nat, 0%nat, 0%nat, 98);
   (1%nat, 0%nat, 0%nat, 0%nat, 0%nat, 1%nat, 95);
   (1%nat, 0%nat, 0%nat, 0%nat, 1%nat, 0%nat, 94);
   (1%nat, 0%nat, 0%nat, 0%nat, 1%nat, 1%nat, 87);
   (1%nat, 0%nat, 0%nat, 0%nat, 2%nat, 0%nat, 91);
   (1%nat, 0%nat, 0%nat, 0%nat, 2%nat, 1%nat, 81);
   (1%nat, 0%nat, 0%nat, 1%nat, 0%nat, 0%nat, 94);
   (1%nat, 0%nat, 0%nat, 1%nat, 0%nat, 1%nat, 89);
   (1%nat, 0%nat, 0%nat, 1%nat, 1%nat, 0%nat, 86);
   (1%nat, 0%nat, 0%nat, 1%nat, 1%nat, 1%nat, 74);
   (1%nat, 0%nat, 0%nat, 1%nat, 2%nat, 0%nat, 77);
   (1%nat, 0%nat, 0%nat, 1%nat, 2%nat, 1%nat, 64);
   (1%nat, 0%nat, 0%nat, 2%nat, 0%nat, 0%nat, 87);
   (1%nat, 0%nat, 0%nat, 2%nat, 0%nat, 1%nat, 75);
   (1%nat, 0%nat, 0%nat, 2%nat, 1%nat, 0%nat, 74);
   (1%nat, 0%nat, 0%nat, 2%nat, 1%nat, 1%nat, 63);
   (1%nat, 0%nat, 0%nat, 2%nat, 2%nat, 0%nat, 63);
   (1%nat, 0%nat, 0%nat, 2%nat, 2%nat, 1%nat, 49);
   (1%nat, 0%nat, 1%nat, 0%nat, 0%nat, 0%nat, 94);
   (1%nat, 0%nat, 1%nat, 0%nat, 0%nat, 1%nat, 89);
   (1%nat, 0%nat, 1%nat, 0%nat, 1%nat, 0%nat, 88);
   (1%nat, 0%nat, 1%nat, 0%nat, 1%nat, 1%nat, 77);
   (1%nat, 0%nat, 1%nat, 0%nat, 2%nat, 0%nat, 76);
   (1%nat, 0%nat, 1%nat, 0%nat, 2%nat, 1%nat, 67);
   (1%nat, 0%nat, 1%nat, 1%nat, 0%nat, 0%nat, 86);
   (1%nat, 0%nat, 1%nat, 1%nat, 0%nat, 1%nat, 76);
   (1%nat, 0%nat, 1%nat, 1%nat, 1%nat, 0%nat, 74);
   (1%nat, 0%nat, 1%nat, 1%nat, 1%nat, 1%nat, 58);
   (1%nat, 0%nat, 1%nat, 1%nat, 2%nat, 0%nat, 59);
   (1%nat, 0%nat, 1%nat, 1%nat, 2%nat, 1%nat, 50);
   (1%nat, 0%nat, 1%nat, 2%nat, 0%nat, 0%nat, 72);
   (1%nat, 0%nat, 1%nat, 2%nat, 0%nat, 1%nat, 57);
   (1%nat, 0%nat, 1%nat, 2%nat, 1%nat, 0%nat, 57);
   (1%nat, 0%nat, 1%nat, 2%nat, 1%nat, 1%nat, 52);
   (1%nat, 0%nat, 1%nat, 2%nat, 2%nat, 0%nat, 52);
   (1%nat, 0%nat, 1%nat, 2%nat, 2%nat, 1%nat, 25);
   (1%nat, 0%nat, 2%nat, 0%nat, 0%nat, 1%nat, 83);
   (1%nat, 0%nat, 2%nat, 0%nat, 1%nat, 1%nat, 70);
   (1%nat, 0%nat, 2%nat, 0%nat, 2%nat, 1%nat, 54);
   (1%nat, 0%nat, 2%nat, 1%nat, 0%nat, 1%nat, 65);
   (1%nat, 0%nat, 2%nat, 1%nat, 1%nat, 1%nat, 58);
   (1%nat, 0%nat, 2%nat, 1%nat, 2%nat, 1%nat, 26);
   (1%nat, 0%nat, 2%nat, 2%nat, 0%nat, 1%nat, 53);
   (1%nat, 0%nat, 2%nat, 2%nat, 1%nat, 1%nat, 21);
   (1%nat, 0%nat, 2%nat, 2%nat, 2%nat, 1%nat, 13);
   (1%nat, 1%nat, 0%nat, 0%nat, 0%nat, 0%nat, 95);
   (1%nat, 1%nat, 0%nat, 0%nat, 0%nat, 1%nat, 90);
   (1%nat, 1%nat, 0%nat, 0%nat, 1%nat, 0%nat, 88);
   (1%nat, 1%nat, 0%nat, 0%nat, 1%nat, 1%nat, 76);
   (1%nat, 1%nat, 0%nat, 0%nat, 2%nat, 0%nat, 76);
   (1%nat, 1%nat, 0%nat, 0%nat, 2%nat, 1%nat, 70);
   (1%nat, 1%nat, 0%nat, 1%nat, 0%nat, 0%nat, 90);
   (1%nat, 1%nat, 0%nat, 1%nat, 0%nat, 1%nat, 77);
   (1%nat, 1%nat, 0%nat, 1%nat, 1%nat, 0%nat, 75);
   (1%nat, 1%nat, 0%nat, 1%nat, 1%nat, 1%nat, 62);
   (1%nat, 1%nat, 0%nat, 1%nat, 2%nat, 0%nat, 61);
   (1%nat, 1%nat, 0%nat, 1%nat, 2%nat, 1%nat, 53);
   (1%nat, 1%nat, 0%nat, 2%nat, 0%nat, 0%nat, 77);
   (1%nat, 1%nat, 0%nat, 2%nat, 0%nat, 1%nat, 66);
   (1%nat, 1%nat, 0%nat, 2%nat, 1%nat, 0%nat, 68);
   (1%nat, 1%nat, 0%nat, 2%nat, 1%nat, 1%nat, 59);
   (1%nat, 1%nat, 0%nat, 2%nat, 2%nat, 0%nat, 52);
   (1%nat, 1%nat, 0%nat, 2%nat, 2%nat, 1%nat, 30);
   (1%nat, 1%nat, 1%nat, 0%nat, 0%nat, 0%nat, 89);
   (1%nat, 1%nat, 1%nat, 0%nat, 0%nat, 1%nat, 78);
   (1%nat, 1%nat, 1%nat, 0%nat, 1%nat, 0%nat, 76);
   (1%nat, 1%nat, 1%nat, 0%nat, 1%nat, 1%nat, 67);
   (1%nat, 1%nat, 1%nat, 0%nat, 2%nat, 0%nat, 62);
   (1%nat, 1%nat, 1%nat, 0%nat, 2%nat, 1%nat, 58);
   (1%nat, 1%nat, 1%nat, 1%nat, 0%nat, 0%nat, 74);
   (1%nat, 1%nat, 1%nat, 1%nat, 0%nat, 1%nat, 59);
   (1%nat, 1%nat, 1%nat, 1%nat, 1%nat, 0%nat, 57);
   (1%nat, 1%nat, 1%nat, 1%nat, 1%nat, 1%nat, 57);
   (1%nat, 1%nat, 1%nat, 1%nat, 2%nat, 0%nat, 47);
   (1%nat, 1%nat, 1%nat, 1%nat, 2%nat, 1%nat, 23);
   (1%nat, 1%nat, 1%nat, 2%nat, 0%nat, 0%nat, 61);
   (1%nat, 1%nat, 1%nat, 2%nat, 0%nat, 1%nat, 52);
   (1%nat, 1%nat, 1%nat, 2%nat, 1%nat, 0%nat, 57);
   (1%nat, 1%nat, 1%nat, 2%nat, 1%nat, 1%nat, 29);
   (1%nat, 1%nat, 1%nat, 2%nat, 2%nat, 0%nat, 24);
   (1%nat, 1%nat, 1%nat, 2%nat, 2%nat, 1%nat, 16);
   (1%nat, 1%nat, 2%nat, 0%nat, 0%nat, 1%nat, 71);
   (1%nat, 1%nat, 2%nat, 0%nat, 1%nat, 1%nat, 59);
   (1%nat, 1%nat, 2%nat, 0%nat, 2%nat, 1%nat, 30);
   (1%nat, 1%nat, 2%nat, 1%nat, 0%nat, 1%nat, 58);
   (1%nat, 1%nat, 2%nat, 1%nat, 1%nat, 1%nat, 26);
   (1%nat, 1%nat, 2%nat, 1%nat, 2%nat, 1%nat, 15);
   (1%nat, 1%nat, 2%nat, 2%nat, 0%nat, 1%nat, 23);
   (1%nat, 1%nat, 2%nat, 2%nat, 1%nat, 1%nat, 13);
   (1%nat, 1%nat, 2%nat, 2%nat, 2%nat, 1%nat, 6);
   (2%nat, 0%nat, 0%nat, 0%nat, 0%nat, 0%nat, 93);
   (2%nat, 0%nat, 0%nat, 0%nat, 0%nat, 1%nat, 87);
   (2%nat, 0%nat, 0%nat, 0%nat, 1%nat, 0%nat, 86);
   (2%nat, 0%nat, 0%nat, 0%nat, 1%nat, 1%nat, 72);
   (2%nat, 0%nat, 0%nat, 0%nat, 2%nat, 0%nat, 75);
   (2%nat, 0%nat, 0%nat, 0%nat, 2%nat, 1%nat, 58);
   (2%nat, 0%nat, 0%nat, 1%nat, 0%nat, 0%nat, 86);
   (2%nat, 0%nat, 0%nat, 1%nat, 0%nat, 1%nat, 74);
   (2%nat, 0%nat, 0%nat, 1%nat, 1%nat, 0%nat, 74);
   (2%nat, 0%nat, 0%nat, 1%nat, 1%nat, 1%nat, 61);
   (2%nat, 0%nat, 0%nat, 1%nat, 2%nat, 0%nat, 56);
   (2%nat, 0%nat, 0%nat, 1%nat, 2%nat, 1%nat, 34);
   (2%nat, 0%nat, 0%nat, 2%nat, 0%nat, 0%nat, 70);
   (2%nat, 0%nat, 0%nat, 2%nat, 0%nat, 1%nat, 54);
   (2%nat, 0%nat, 0%nat, 2%nat, 1%nat, 0%nat, 52);
   (2%nat, 0%nat, 0%nat, 2%nat, 1%nat, 1%nat, 40);
   (2%nat, 0%nat, 0%nat, 2%nat, 2%nat, 0%nat, 40);
   (2%nat, 0%nat, 0%nat, 2%nat, 2%nat, 1%nat, 22);
   (2%nat, 0%nat, 1%nat, 0%nat, 0%nat, 0%nat, 85);
   (2%nat, 0%nat, 1%nat, 0%nat, 0%nat, 1%nat, 75);
   (2%nat, 0%nat, 1%nat, 0%nat, 1%nat, 0%nat, 74);
   (2%nat, 0%nat, 1%nat, 0%nat, 1%nat, 1%nat, 55);
   (2%nat, 0%nat, 1%nat, 0%nat, 2%nat, 0%nat, 62);
   (2%nat, 0%nat, 1%nat, 0%nat, 2%nat, 1%nat, 51);
   (2%nat, 0%nat, 1%nat, 1%nat, 0%nat, 0%nat, 72);
   (2%nat, 0%nat, 1%nat, 1%nat, 0%nat, 1%nat, 57);
   (2%nat, 0%nat, 1%nat, 1%nat, 1%nat, 0%nat, 55);
   (2%nat, 0%nat, 1%nat, 1%nat, 1%nat, 1%nat, 41);
   (2%nat, 0%nat, 1%nat, 1%nat, 2%nat, 0%nat, 46);
   (2%nat, 0%nat, 1%nat, 1%nat, 2%nat, 1%nat, 19);
   (2%nat, 0%nat, 1%nat, 2%nat, 0%nat, 0%nat, 53);
   (2%nat, 0%nat, 1%nat, 2%nat, 0%nat, 1%nat, 36);
   (2%nat, 0%nat, 1%nat, 2%nat, 1%nat, 0%nat, 34);
   (2%nat, 0%nat, 1%nat, 2%nat, 1%nat, 1%nat, 19);
   (2%nat, 0%nat, 1%nat, 2%nat, 2%nat, 0%nat, 19);
   (2%nat, 0%nat, 1%nat, 2%nat, 2%nat, 1%nat, 8);
   (2%nat, 0%nat, 2%nat, 0%nat, 0%nat, 1%nat, 64);
   (2%nat, 0%nat, 2%nat, 0%nat, 1%nat, 1%nat, 51);
   (2%nat, 0%nat, 2%nat, 0%nat, 2%nat, 1%nat, 20);
   (2%nat, 0%nat, 2%nat, 1%nat, 0%nat, 1%nat, 47);
   (2%nat, 0%nat, 2%nat, 1%nat, 1%nat, 1%nat, 21);
   (2%nat, 0%nat, 2%nat, 1%nat, 2%nat, 1%nat, 11);
   (2%nat, 0%nat, 2%nat, 2%nat, 0%nat, 1%nat, 24);
   (2%nat, 0%nat, 2%nat, 2%nat, 1%nat, 1%nat, 9);
   (2%nat, 0%nat, 2%nat, 2%nat, 2%nat, 1%nat, 4);
   (2%nat, 1%nat, 0%nat, 0%nat, 0%nat, 0%nat, 88);
   (2%nat, 1%nat, 0%nat, 0%nat, 0%nat, 1%nat, 75);
   (2%nat, 1%nat, 0%nat, 0%nat, 1%nat, 0%nat, 73);
   (2%nat, 1%nat, 0%nat, 0%nat, 1%nat, 1%nat, 53);
   (2%nat, 1%nat, 0%nat, 0%nat, 2%nat, 0%nat, 60);
   (2%nat, 1%nat, 0%nat, 0%nat, 2%nat, 1%nat, 50);
   (2%nat, 1%nat, 0%nat, 1%nat, 0%nat, 0%nat, 73);
   (2%nat, 1%nat, 0%nat, 1%nat, 0%nat, 1%nat, 55);
   (2%nat, 1%nat, 0%nat, 1%nat, 1%nat, 0%nat, 59);
   (2%nat, 1%nat, 0%nat, 1%nat, 1%nat, 1%nat, 40);
   (2%nat, 1%nat, 0%nat, 1%nat, 2%nat, 0%nat, 41);
   (2%nat, 1%nat, 0%nat, 1%nat, 2%nat, 1%nat, 20);
   (2%nat, 1%nat, 0%nat, 2%nat, 0%nat, 0%nat, 54);
   (2%nat, 1%nat, 0%nat, 2%nat, 0%nat, 1%nat, 43);
   (2%nat, 1%nat, 0%nat, 2%nat, 1%nat, 0%nat, 45);
   (2%nat, 1%nat, 0%nat, 2%nat, 1%nat, 1%nat, 22);
   (2%nat, 1%nat, 0%nat, 2%nat, 2%nat, 0%nat, 20);
   (2%nat, 1%nat, 0%nat, 2%nat, 2%nat, 1%nat, 11);
   (2%nat, 1%nat, 1%nat, 0%nat, 0%nat, 0%nat, 75);
   (2%nat, 1%nat, 1%nat, 0%nat, 0%nat, 1%nat, 55);
   (2%nat, 1%nat, 1%nat, 0%nat, 1%nat, 0%nat, 58);
   (2%nat, 1%nat, 1%nat, 0%nat, 1%nat, 1%nat, 45);
   (2%nat, 1%nat, 1%nat, 0%nat, 2%nat, 0%nat, 40);
   (2%nat, 1%nat, 1%nat, 0%nat, 2%nat, 1%nat, 21);
   (2%nat, 1%nat, 1%nat, 1%nat, 0%nat, 0%nat, 61);
   (2%nat, 1%nat, 1%nat, 1%nat, 0%nat, 1%nat, 51);
   (2%nat, 1%nat, 1%nat, 1%nat, 1%nat, 0%nat, 48);
   (2%nat, 1%nat, 1%nat, 1%nat, 1%nat, 1%nat, 18);
   (2%nat, 1%nat, 1%nat, 1%nat, 2%nat, 0%nat, 20);
   (2%nat, 1%nat, 1%nat, 1%nat, 2%nat, 1%nat, 9);
   (2%nat, 1%nat, 1%nat, 2%nat, 0%nat, 0%nat, 46);
   (2%nat, 1%nat, 1%nat, 2%nat, 0%nat, 1%nat, 18);
   (2%nat, 1%nat, 1%nat, 2%nat, 1%nat, 0%nat, 17);
   (2%nat, 1%nat, 1%nat, 2%nat, 1%nat, 1%nat, 7);
   (2%nat, 1%nat, 1%nat, 2%nat, 2%nat, 0%nat, 8);
   (2%nat, 1%nat, 1%nat, 2%nat, 2%nat, 1%nat, 2);
   (2%nat, 1%nat, 2%nat, 0%nat, 0%nat, 1%nat, 53);
   (2%nat, 1%nat, 2%nat, 0%nat, 1%nat, 1%nat, 24);
   (2%nat, 1%nat, 2%nat, 0%nat, 2%nat, 1%nat, 14);
   (2%nat, 1%nat, 2%nat, 1%nat, 0%nat, 1%nat, 24);
   (2%nat, 1%nat, 2%nat, 1%nat, 1%nat, 1%nat, 12);
   (2%nat, 1%nat, 2%nat, 1%nat, 2%nat, 1%nat, 5);
   (2%nat, 1%nat, 2%nat, 2%nat, 0%nat, 1%nat, 10);
   (2%nat, 1%nat, 2%nat, 2%nat, 1%nat, 1%nat, 3);
   (2%nat, 1%nat, 2%nat, 2%nat, 2%nat, 1%nat, 1)
  ].
