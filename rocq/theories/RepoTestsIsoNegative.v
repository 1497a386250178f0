(** tests/iso-negative.rs, tests iso_e001 to iso_e020, written by a script from the test's text. *)
From Coq Require Import NArith List.
Import ListNotations.
From Verif Require Import RepoTestRun.
Open Scope N_scope.

Example iso_e001 : not_found
  [(U 3, U 2, U 0); (U 1, U 1, U 2); (B 0, U 3, B 0); (U 2, U 1, B 0); (B 0, U 3, U 0)]
  [(F, F, F); (U 3, U 2, U 0); (U 1, U 1, U 2); (T 0, U 3, T 0); (U 2, U 1, T 0); (T 0, U 3, U 0)] = true.
Proof. vm_compute; reflexivity. Qed.

Example iso_e002 : not_found
  [(U 1, U 2, U 3); (U 3, U 0, B 0); (U 0, U 3, U 2); (U 3, B 0, B 0); (U 0, U 3, U 3)]
  [(F, F, F); (U 1, U 2, U 3); (U 3, U 0, T 0); (U 0, U 3, U 2); (U 3, T 0, T 0); (U 0, U 3, U 3)] = true.
Proof. vm_compute; reflexivity. Qed.

Example iso_e003 : not_found
  [(B 0, U 0, U 0); (B 0, U 0, U 1); (U 3, B 0, U 3); (B 0, U 3, B 0); (U 0, U 1, U 3)]
  [(F, F, F); (T 0, U 0, U 0); (T 0, U 0, U 1); (U 3, T 0, U 3); (T 0, U 3, T 0); (U 0, U 1, U 3)] = true.
Proof. vm_compute; reflexivity. Qed.

Example iso_e004 : not_found
  [(B 0, U 3, U 2); (B 0, B 0, U 0); (U 2, U 1, U 3); (U 1, U 1, U 2); (U 2, U 3, B 0)]
  [(F, F, F); (T 0, U 3, U 2); (T 0, T 0, U 0); (U 2, U 1, U 3); (U 1, U 1, U 2); (U 2, U 3, T 0)] = true.
Proof. vm_compute; reflexivity. Qed.

Example iso_e005 : not_found
  [(U 3, U 2, U 1); (U 0, U 3, U 2); (B 0, B 0, U 1); (U 0, U 0, B 0); (U 3, B 0, U 3)]
  [(F, F, F); (U 3, U 2, U 1); (U 0, U 3, U 2); (T 0, T 0, U 1); (U 0, U 0, T 0); (U 3, T 0, U 3)] = true.
Proof. vm_compute; reflexivity. Qed.

Example iso_e006 : not_found
  [(B 0, U 1, U 2); (B 1, U 1, B 0); (B 0, U 0, B 1); (U 0, U 1, U 0); (U 2, B 1, B 0)]
  [(F, F, F); (T 0, U 1, U 2); (T 1, U 1, T 0); (T 0, U 0, T 1); (U 0, U 1, U 0); (U 2, T 1, T 0)] = true.
Proof. vm_compute; reflexivity. Qed.

Example iso_e007 : not_found
  [(U 2, U 0, B 1); (U 1, U 1, U 1); (U 2, U 2, U 2); (U 0, U 0, U 1); (B 0, U 0, B 1)]
  [(F, F, F); (U 2, U 0, T 1); (U 1, U 1, U 1); (U 2, U 2, U 2); (U 0, U 0, U 1); (T 0, U 0, T 1)] = true.
Proof. vm_compute; reflexivity. Qed.

Example iso_e008 : not_found
  [(U 0, B 0, U 0); (U 2, U 0, B 1); (B 1, U 1, U 1); (U 0, U 0, B 1); (U 2, B 1, U 0)]
  [(F, F, F); (U 0, T 0, U 0); (U 2, U 0, T 1); (T 1, U 1, U 1); (U 0, U 0, T 1); (U 2, T 1, U 0)] = true.
Proof. vm_compute; reflexivity. Qed.

Example iso_e009 : not_found
  [(B 0, U 2, U 0); (U 0, U 2, B 0); (U 0, U 0, B 1); (U 2, B 0, U 1); (B 0, B 1, B 1)]
  [(F, F, F); (T 0, U 2, U 0); (U 0, U 2, T 0); (U 0, U 0, T 1); (U 2, T 0, U 1); (T 0, T 1, T 1)] = true.
Proof. vm_compute; reflexivity. Qed.

Example iso_e010 : not_found
  [(B 1, U 1, B 0); (B 1, B 0, B 0); (U 0, B 1, U 1); (U 1, B 0, B 1); (U 0, B 0, U 2)]
  [(F, F, F); (T 1, U 1, T 0); (T 1, T 0, T 0); (U 0, T 1, U 1); (U 1, T 0, T 1); (U 0, T 0, U 2)] = true.
Proof. vm_compute; reflexivity. Qed.

Example iso_e011 : not_found
  [(B 1, B 2, U 3); (U 1, U 1, U 3); (U 3, U 0, B 0); (U 5, B 2, U 5); (U 5, B 1, U 5); (U 0, U 3, U 5);
   (U 2, U 3, U 1); (B 0, B 2, U 1); (B 0, U 1, U 1); (U 6, U 2, U 3)]
  [(F, F, F); (T 1, T 2, U 3); (U 1, U 1, U 3); (U 3, U 0, T 0); (U 5, T 2, U 5); (U 5, T 1, U 5); (U 0, U 3, U 5);
   (U 2, U 3, U 1); (T 0, T 2, U 1); (T 0, U 1, U 1); (U 6, U 2, U 3)] = true.
Proof. vm_compute; reflexivity. Qed.

Example iso_e012 : not_found
  [(B 2, B 0, U 4); (U 4, U 2, U 4); (U 5, U 4, U 6); (B 0, U 5, U 3); (U 0, U 1, U 3); (U 4, U 1, U 5);
   (U 6, U 2, U 6); (U 3, U 2, U 0); (U 5, U 1, U 0); (B 2, B 2, U 2)]
  [(F, F, F); (T 2, T 0, U 4); (U 4, U 2, U 4); (U 5, U 4, U 6); (T 0, U 5, U 3); (U 0, U 1, U 3); (U 4, U 1, U 5);
   (U 6, U 2, U 6); (U 3, U 2, U 0); (U 5, U 1, U 0); (T 2, T 2, U 2)] = true.
Proof. vm_compute; reflexivity. Qed.

Example iso_e013 : not_found
  [(U 3, U 2, B 0); (B 0, U 5, U 4); (U 2, B 1, B 2); (U 3, U 5, U 5); (U 3, B 1, B 1); (U 5, U 2, U 5);
   (B 2, U 0, U 1); (U 1, U 1, U 1); (B 1, U 2, U 5); (U 4, B 0, B 2)]
  [(F, F, F); (U 3, U 2, T 0); (T 0, U 5, U 4); (U 2, T 1, T 2); (U 3, U 5, U 5); (U 3, T 1, T 1); (U 5, U 2, U 5);
   (T 2, U 0, U 1); (U 1, U 1, U 1); (T 1, U 2, U 5); (U 4, T 0, T 2)] = true.
Proof. vm_compute; reflexivity. Qed.

Example iso_e014 : not_found
  [(B 0, B 0, U 2); (B 2, U 0, U 6); (B 1, B 1, U 4); (B 1, U 1, B 0); (B 2, U 0, B 2); (U 2, U 6, B 1);
   (U 5, U 6, B 2); (B 1, U 2, B 1); (B 2, U 5, U 2); (U 5, U 6, U 1)]
  [(F, F, F); (T 0, T 0, U 2); (T 2, U 0, U 6); (T 1, T 1, U 4); (T 1, U 1, T 0); (T 2, U 0, T 2); (U 2, U 6, T 1);
   (U 5, U 6, T 2); (T 1, U 2, T 1); (T 2, U 5, U 2); (U 5, U 6, U 1)] = true.
Proof. vm_compute; reflexivity. Qed.

Example iso_e015 : not_found
  [(U 1, U 0, U 4); (B 1, B 1, U 5); (U 3, U 3, U 4); (U 2, U 2, U 0); (B 0, B 1, U 2); (U 3, U 6, U 6);
   (U 2, U 1, B 1); (U 2, B 2, B 0); (U 5, U 4, U 2); (B 0, U 3, B 1)]
  [(F, F, F); (U 1, U 0, U 4); (T 1, T 1, U 5); (U 3, U 3, U 4); (U 2, U 2, U 0); (T 0, T 1, U 2); (U 3, U 6, U 6);
   (U 2, U 1, T 1); (U 2, T 2, T 0); (U 5, U 4, U 2); (T 0, U 3, T 1)] = true.
Proof. vm_compute; reflexivity. Qed.

Example iso_e016 : not_found
  [(U 0, U 9, U 2); (B 5, U 7, U 9); (U 2, U 7, U 4); (B 6, B 2, B 3); (B 1, U 7, U 6); (B 2, U 1, B 7);
   (B 5, B 4, U 5); (B 3, U 7, U 9); (B 8, U 6, B 6); (B 9, U 4, B 4); (U 8, U 1, U 5); (U 4, U 5, B 9);
   (U 8, B 1, B 1); (U 8, U 2, B 9); (U 2, B 6, B 8); (B 3, B 3, U 9); (B 0, U 3, U 3); (B 8, B 1, B 2);
   (B 0, U 8, U 3); (U 8, U 1, B 6)]
  [(F, F, F); (U 0, U 9, U 2); (T 5, U 7, U 9); (U 2, U 7, U 4); (T 6, T 2, T 3); (T 1, U 7, U 6); (T 2, U 1, T 7);
   (T 5, T 4, U 5); (T 3, U 7, U 9); (T 8, U 6, T 6); (T 9, U 4, T 4); (U 8, U 1, U 5); (U 4, U 5, T 9);
   (U 8, T 1, T 1); (U 8, U 2, T 9); (U 2, T 6, T 8); (T 3, T 3, U 9); (T 0, U 3, U 3); (T 8, T 1, T 2);
   (T 0, U 8, U 3); (U 8, U 1, T 6)] = true.
Proof. vm_compute; reflexivity. Qed.

Example iso_e017 : not_found
  [(U 7, B 4, B 8); (U 6, B 9, U 2); (B 5, U 9, U 5); (B 7, U 7, B 1); (U 9, B 1, B 2); (B 2, B 3, B 3);
   (B 4, B 6, B 5); (U 1, B 1, U 5); (B 6, U 8, B 1); (U 9, U 8, B 8); (B 0, U 6, U 7); (B 4, U 4, B 6);
   (U 9, B 0, U 2); (B 8, U 6, U 9); (B 2, B 9, U 6); (B 1, B 0, U 7); (U 4, U 8, U 5); (B 9, B 5, U 1);
   (U 8, U 5, B 9); (U 6, U 2, U 8)]
  [(F, F, F); (U 7, T 4, T 8); (U 6, T 9, U 2); (T 5, U 9, U 5); (T 7, U 7, T 1); (U 9, T 1, T 2); (T 2, T 3, T 3);
   (T 4, T 6, T 5); (U 1, T 1, U 5); (T 6, U 8, T 1); (U 9, U 8, T 8); (T 0, U 6, U 7); (T 4, U 4, T 6);
   (U 9, T 0, U 2); (T 8, U 6, U 9); (T 2, T 9, U 6); (T 1, T 0, U 7); (U 4, U 8, U 5); (T 9, T 5, U 1);
   (U 8, U 5, T 9); (U 6, U 2, U 8)] = true.
Proof. vm_compute; reflexivity. Qed.

Example iso_e018 : not_found
  [(U 1, B 7, U 7); (U 1, U 2, B 8); (B 0, B 9, U 2); (U 6, U 2, B 5); (U 0, B 2, U 4); (U 6, U 0, B 5);
   (B 6, U 7, U 1); (B 6, B 2, B 0); (B 2, B 5, U 2); (U 3, B 0, B 5); (B 5, U 0, B 7); (U 4, U 5, B 3);
   (U 8, B 2, U 3); (U 0, B 6, B 5); (B 8, B 3, B 8); (U 2, U 1, B 9); (B 2, B 0, B 4); (B 1, B 6, B 8);
   (U 2, U 2, U 3); (U 5, B 0, U 6)]
  [(F, F, F); (U 1, T 7, U 7); (U 1, U 2, T 8); (T 0, T 9, U 2); (U 6, U 2, T 5); (U 0, T 2, U 4); (U 6, U 0, T 5);
   (T 6, U 7, U 1); (T 6, T 2, T 0); (T 2, T 5, U 2); (U 3, T 0, T 5); (T 5, U 0, T 7); (U 4, U 5, T 3);
   (U 8, T 2, U 3); (U 0, T 6, T 5); (T 8, T 3, T 8); (U 2, U 1, T 9); (T 2, T 0, T 4); (T 1, T 6, T 8);
   (U 2, U 2, U 3); (U 5, T 0, U 6)] = true.
Proof. vm_compute; reflexivity. Qed.

Example iso_e019 : not_found
  [(B 1, U 5, B 2); (U 0, B 1, U 0); (U 5, U 0, B 4); (B 5, B 5, B 0); (B 4, U 0, U 7); (B 3, B 3, B 9);
   (B 5, U 7, B 4); (B 9, U 7, B 0); (U 5, B 2, B 0); (B 0, U 2, B 1); (B 0, U 6, B 5); (B 5, U 8, B 1);
   (B 7, B 8, U 4); (B 3, B 4, B 5); (B 1, U 1, B 3); (B 8, B 4, B 6); (B 9, B 6, U 8); (U 3, U 5, U 1);
   (B 2, B 7, U 0); (B 0, U 8, U 4)]
  [(F, F, F); (T 1, U 5, T 2); (U 0, T 1, U 0); (U 5, U 0, T 4); (T 5, T 5, T 0); (T 4, U 0, U 7); (T 3, T 3, T 9);
   (T 5, U 7, T 4); (T 9, U 7, T 0); (U 5, T 2, T 0); (T 0, U 2, T 1); (T 0, U 6, T 5); (T 5, U 8, T 1);
   (T 7, T 8, U 4); (T 3, T 4, T 5); (T 1, U 1, T 3); (T 8, T 4, T 6); (T 9, T 6, U 8); (U 3, U 5, U 1);
   (T 2, T 7, U 0); (T 0, U 8, U 4)] = true.
Proof. vm_compute; reflexivity. Qed.

Example iso_e020 : not_found
  [(B 2, B 28, B 19); (B 24, U 35, B 37); (B 3, U 13, B 44); (B 32, B 28, U 23); (U 32, B 44, U 13);
   (U 49, B 22, U 37); (U 4, B 2, U 4); (U 47, B 34, B 38); (U 36, U 1, U 28); (B 44, B 11, U 16); (U 7, U 21, B 4);
   (B 29, B 42, U 40); (U 49, U 46, B 4); (U 25, B 38, U 17); (B 44, U 10, U 48); (B 37, B 1, B 18);
   (B 32, B 48, B 6); (U 29, U 32, B 44); (B 1, B 17, B 38); (B 33, B 22, U 40); (B 8, U 28, B 4); (U 39, B 30, B 1);
   (U 45, U 23, B 35); (U 6, U 42, B 15); (B 14, U 40, U 9); (B 49, U 33, U 16); (B 31, U 21, B 6);
   (U 27, B 39, U 19); (U 10, B 19, B 25); (U 7, B 46, U 1); (B 12, U 18, U 49); (B 26, B 46, U 30);
   (B 11, U 8, B 49); (U 46, U 46, B 5); (B 1, B 3, B 44); (B 37, U 5, U 12); (U 3, U 4, U 14); (B 15, B 28, U 31);
   (B 35, B 36, U 24); (U 24, U 40, U 15); (U 47, U 29, B 38); (B 18, U 49, U 16); (B 45, B 10, B 36);
   (B 38, U 10, U 35); (B 5, B 42, U 48); (U 25, U 45, B 10); (B 19, U 33, U 25); (B 28, U 0, B 13);
   (U 16, U 28, B 30); (B 10, U 4, B 11); (B 4, U 44, B 38); (B 6, B 8, U 27); (U 5, U 41, U 47); (U 22, B 46, U 22);
   (U 49, U 28, B 36); (U 12, B 19, U 34); (U 41, B 24, U 26); (B 22, U 37, B 7); (U 49, U 42, B 27);
   (B 6, U 24, U 35); (B 9, U 37, U 27); (U 10, B 26, U 11); (U 19, B 21, U 29); (U 18, B 26, B 40);
   (B 35, B 17, B 19); (B 34, U 41, B 2); (B 0, B 11, B 21); (B 43, B 12, U 34); (U 19, B 37, B 45);
   (U 0, B 21, B 41); (B 16, U 2, B 33); (B 2, U 33, B 18); (B 29, B 40, B 34); (U 38, U 14, U 3);
   (B 23, B 47, B 15); (B 22, U 40, U 24); (U 28, B 31, U 6); (U 31, B 30, U 1); (B 19, U 44, B 14);
   (B 28, U 25, U 30); (U 24, U 38, B 45); (U 49, U 30, U 19); (U 19, U 49, U 1); (B 5, U 3, B 13);
   (B 31, U 15, U 14); (U 7, U 40, U 43); (B 25, U 3, B 21); (U 23, U 14, U 5); (B 49, B 22, B 30);
   (U 40, U 32, B 12); (B 9, B 1, U 33); (B 44, U 43, B 2); (B 31, U 32, B 0); (B 12, U 26, B 28); (U 42, U 15, B 5);
   (B 6, U 6, B 11); (U 25, B 27, B 19); (B 6, U 6, U 7); (U 36, B 13, U 29); (U 25, U 1, U 15)]
  [(F, F, F); (T 2, T 28, T 19); (T 24, U 35, T 37); (T 3, U 13, T 44); (T 32, T 28, U 23); (U 32, T 44, U 13);
   (U 49, T 22, U 37); (U 4, T 2, U 4); (U 47, T 34, T 38); (U 36, U 1, U 28); (T 44, T 11, U 16); (U 7, U 21, T 4);
   (T 29, T 42, U 40); (U 49, U 46, T 4); (U 25, T 38, U 17); (T 44, U 10, U 48); (T 37, T 1, T 18);
   (T 32, T 48, T 6); (U 29, U 32, T 44); (T 1, T 17, T 38); (T 33, T 22, U 40); (T 8, U 28, T 4); (U 39, T 30, T 1);
   (U 45, U 23, T 35); (U 6, U 42, T 15); (T 14, U 40, U 9); (T 49, U 33, U 16); (T 31, U 21, T 6);
   (U 27, T 39, U 19); (U 10, T 19, T 25); (U 7, T 46, U 1); (T 12, U 18, U 49); (T 26, T 46, U 30);
   (T 11, U 8, T 49); (U 46, U 46, T 5); (T 1, T 3, T 44); (T 37, U 5, U 12); (U 3, U 4, U 14); (T 15, T 28, U 31);
   (T 35, T 36, U 24); (U 24, U 40, U 15); (U 47, U 29, T 38); (T 18, U 49, U 16); (T 45, T 10, T 36);
   (T 38, U 10, U 35); (T 5, T 42, U 48); (U 25, U 45, T 10); (T 19, U 33, U 25); (T 28, U 0, T 13);
   (U 16, U 28, T 30); (T 10, U 4, T 11); (T 4, U 44, T 38); (T 6, T 8, U 27); (U 5, U 41, U 47); (U 22, T 46, U 22);
   (U 49, U 28, T 36); (U 12, T 19, U 34); (U 41, T 24, U 26); (T 22, U 37, T 7); (U 49, U 42, T 27);
   (T 6, U 24, U 35); (T 9, U 37, U 27); (U 10, T 26, U 11); (U 19, T 21, U 29); (U 18, T 26, T 40);
   (T 35, T 17, T 19); (T 34, U 41, T 2); (T 0, T 11, T 21); (T 43, T 12, U 34); (U 19, T 37, T 45);
   (U 0, T 21, T 41); (T 16, U 2, T 33); (T 2, U 33, T 18); (T 29, T 40, T 34); (U 38, U 14, U 3);
   (T 23, T 47, T 15); (T 22, U 40, U 24); (U 28, T 31, U 6); (U 31, T 30, U 1); (T 19, U 44, T 14);
   (T 28, U 25, U 30); (U 24, U 38, T 45); (U 49, U 30, U 19); (U 19, U 49, U 1); (T 5, U 3, T 13);
   (T 31, U 15, U 14); (U 7, U 40, U 43); (T 25, U 3, T 21); (U 23, U 14, U 5); (T 49, T 22, T 30);
   (U 40, U 32, T 12); (T 9, T 1, U 33); (T 44, U 43, T 2); (T 31, U 32, T 0); (T 12, U 26, T 28); (U 42, U 15, T 5);
   (T 6, U 6, T 11); (U 25, T 27, T 19); (T 6, U 6, U 7); (U 36, T 13, U 29); (U 25, U 1, U 15)] = true.
Proof. vm_compute; reflexivity. Qed.

