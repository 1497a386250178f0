(** tests/iso.rs, tests iso_101 to iso_150, written by a script from the test's text. *)
From Coq Require Import NArith List.
Import ListNotations.
From Verif Require Import RepoTestRun.
Open Scope N_scope.

Example iso_101 : found
  [(U 2, B 2, B 2); (U 9, U 3, B 0); (U 6, B 9, B 1); (B 6, U 9, B 2); (U 6, B 7, U 4); (U 1, U 5, U 4);
   (B 6, U 6, U 2); (B 7, B 0, U 2); (U 6, B 7, B 2); (U 0, U 3, B 1); (B 0, U 4, B 3); (U 4, B 1, B 2);
   (U 8, U 9, B 1); (U 4, U 6, U 9); (B 4, B 2, B 1); (U 8, B 0, B 6); (U 4, U 3, B 4); (B 6, U 9, U 8);
   (U 9, B 0, U 0); (B 3, B 2, U 8)]
  [(U 2, T 2, T 2); (U 9, U 3, T 0); (U 6, T 9, T 1); (T 6, U 9, T 2); (U 6, T 7, U 4); (U 1, U 5, U 4);
   (T 6, U 6, U 2); (T 7, T 0, U 2); (U 6, T 7, T 2); (U 0, U 3, T 1); (T 0, U 4, T 3); (U 4, T 1, T 2);
   (U 8, U 9, T 1); (U 4, U 6, U 9); (T 4, T 2, T 1); (U 8, T 0, T 6); (U 4, U 3, T 4); (T 6, U 9, U 8);
   (U 9, T 0, U 0); (T 3, T 2, U 8)] = true.
Proof. vm_compute; reflexivity. Qed.

Example iso_102 : found
  [(U 4, U 1, B 4); (U 9, U 1, U 1); (U 4, U 0, U 4); (B 5, B 2, B 2); (U 9, U 4, U 9); (B 8, U 2, B 3);
   (B 4, U 8, U 2); (U 3, U 4, U 4); (B 2, B 3, B 2); (B 9, B 5, U 7); (B 6, B 6, B 4); (U 6, U 2, B 6);
   (U 2, B 0, U 4); (B 7, B 3, U 7); (U 7, U 2, U 5); (U 3, U 6, B 1); (B 3, B 2, U 9); (U 7, B 8, B 6);
   (B 5, U 6, U 2); (U 4, U 3, U 2)]
  [(U 4, U 1, T 4); (U 9, U 1, U 1); (U 4, U 0, U 4); (T 5, T 2, T 2); (U 9, U 4, U 9); (T 8, U 2, T 3);
   (T 4, U 8, U 2); (U 3, U 4, U 4); (T 2, T 3, T 2); (T 9, T 5, U 7); (T 6, T 6, T 4); (U 6, U 2, T 6);
   (U 2, T 0, U 4); (T 7, T 3, U 7); (U 7, U 2, U 5); (U 3, U 6, T 1); (T 3, T 2, U 9); (U 7, T 8, T 6);
   (T 5, U 6, U 2); (U 4, U 3, U 2)] = true.
Proof. vm_compute; reflexivity. Qed.

Example iso_103 : found
  [(B 3, B 8, B 5); (U 9, B 1, B 2); (B 1, B 0, B 8); (U 6, U 9, B 0); (U 3, U 3, U 6); (U 4, U 1, U 2);
   (B 1, B 2, U 6); (U 1, U 5, U 8); (U 8, U 1, B 9); (U 7, U 0, U 8); (B 5, U 9, U 5); (U 7, U 6, U 5);
   (B 0, U 1, B 3); (B 8, B 1, U 2); (U 3, U 8, U 3); (U 0, U 4, B 8); (U 2, U 5, U 5); (U 5, B 8, U 8);
   (U 3, U 2, B 4); (U 0, B 1, U 4)]
  [(T 3, T 8, T 5); (U 9, T 1, T 2); (T 1, T 0, T 8); (U 6, U 9, T 0); (U 3, U 3, U 6); (U 4, U 1, U 2);
   (T 1, T 2, U 6); (U 1, U 5, U 8); (U 8, U 1, T 9); (U 7, U 0, U 8); (T 5, U 9, U 5); (U 7, U 6, U 5);
   (T 0, U 1, T 3); (T 8, T 1, U 2); (U 3, U 8, U 3); (U 0, U 4, T 8); (U 2, U 5, U 5); (U 5, T 8, U 8);
   (U 3, U 2, T 4); (U 0, T 1, U 4)] = true.
Proof. vm_compute; reflexivity. Qed.

Example iso_104 : found
  [(B 7, B 9, B 5); (B 2, B 9, B 1); (U 3, U 6, B 0); (B 7, U 0, U 4); (U 3, B 1, B 3); (U 0, U 6, U 4);
   (U 0, U 9, B 4); (B 8, U 1, U 6); (U 9, B 9, B 3); (B 9, B 6, U 6); (B 1, U 5, B 7); (U 7, B 8, U 4);
   (B 5, U 7, U 1); (B 8, B 7, B 4); (U 2, B 1, B 0); (U 6, B 0, B 9); (U 6, U 8, U 7); (B 2, U 6, U 2);
   (B 2, U 3, B 7); (U 3, U 7, B 2)]
  [(T 7, T 9, T 5); (T 2, T 9, T 1); (U 3, U 6, T 0); (T 7, U 0, U 4); (U 3, T 1, T 3); (U 0, U 6, U 4);
   (U 0, U 9, T 4); (T 8, U 1, U 6); (U 9, T 9, T 3); (T 9, T 6, U 6); (T 1, U 5, T 7); (U 7, T 8, U 4);
   (T 5, U 7, U 1); (T 8, T 7, T 4); (U 2, T 1, T 0); (U 6, T 0, T 9); (U 6, U 8, U 7); (T 2, U 6, U 2);
   (T 2, U 3, T 7); (U 3, U 7, T 2)] = true.
Proof. vm_compute; reflexivity. Qed.

Example iso_105 : found
  [(B 9, B 3, U 5); (B 4, B 7, B 8); (B 0, U 8, B 5); (U 4, U 2, B 7); (B 6, B 2, U 4); (B 9, B 9, U 8);
   (B 4, B 3, U 5); (U 8, U 5, U 7); (U 3, U 8, B 8); (U 8, B 3, B 4); (U 1, B 8, U 5); (B 4, B 7, U 7);
   (U 1, B 1, U 7); (B 1, B 4, B 7); (U 0, U 8, U 5); (B 3, B 1, U 0); (U 9, B 9, U 3); (U 1, B 5, B 5);
   (B 7, U 6, B 9); (B 4, B 4, B 2)]
  [(T 9, T 3, U 5); (T 4, T 7, T 8); (T 0, U 8, T 5); (U 4, U 2, T 7); (T 6, T 2, U 4); (T 9, T 9, U 8);
   (T 4, T 3, U 5); (U 8, U 5, U 7); (U 3, U 8, T 8); (U 8, T 3, T 4); (U 1, T 8, U 5); (T 4, T 7, U 7);
   (U 1, T 1, U 7); (T 1, T 4, T 7); (U 0, U 8, U 5); (T 3, T 1, U 0); (U 9, T 9, U 3); (U 1, T 5, T 5);
   (T 7, U 6, T 9); (T 4, T 4, T 2)] = true.
Proof. vm_compute; reflexivity. Qed.

Example iso_106 : found
  [(B 3, B 9, U 6); (B 0, U 3, B 9); (U 3, U 6, B 7); (U 8, U 0, B 8); (U 0, U 0, U 5); (B 5, U 3, B 2);
   (B 9, B 4, U 3); (U 6, U 8, U 3); (B 5, U 5, U 7); (U 0, B 0, U 7); (U 0, B 2, B 1); (U 0, B 2, B 7);
   (B 9, B 2, B 6); (B 0, B 0, U 9); (B 0, U 6, U 8); (B 8, U 7, U 9); (B 6, U 1, U 7); (B 0, B 6, B 5);
   (U 7, B 1, B 4); (B 0, B 0, U 8)]
  [(T 3, T 9, U 6); (T 0, U 3, T 9); (U 3, U 6, T 7); (U 8, U 0, T 8); (U 0, U 0, U 5); (T 5, U 3, T 2);
   (T 9, T 4, U 3); (U 6, U 8, U 3); (T 5, U 5, U 7); (U 0, T 0, U 7); (U 0, T 2, T 1); (U 0, T 2, T 7);
   (T 9, T 2, T 6); (T 0, T 0, U 9); (T 0, U 6, U 8); (T 8, U 7, U 9); (T 6, U 1, U 7); (T 0, T 6, T 5);
   (U 7, T 1, T 4); (T 0, T 0, U 8)] = true.
Proof. vm_compute; reflexivity. Qed.

Example iso_107 : found
  [(B 0, U 6, B 9); (U 9, U 9, B 1); (B 9, B 7, B 2); (B 2, B 8, B 2); (B 2, B 1, B 2); (U 9, B 6, U 8);
   (U 1, B 8, U 7); (U 9, B 0, U 6); (B 6, U 7, B 7); (U 5, U 9, U 2); (U 8, U 4, B 4); (U 6, U 2, B 2);
   (U 6, U 4, B 7); (U 3, U 2, U 6); (B 9, B 5, B 4); (B 1, B 7, U 8); (U 6, U 1, B 1); (U 3, U 1, B 3);
   (B 6, U 1, B 9); (U 7, U 9, U 6)]
  [(T 0, U 6, T 9); (U 9, U 9, T 1); (T 9, T 7, T 2); (T 2, T 8, T 2); (T 2, T 1, T 2); (U 9, T 6, U 8);
   (U 1, T 8, U 7); (U 9, T 0, U 6); (T 6, U 7, T 7); (U 5, U 9, U 2); (U 8, U 4, T 4); (U 6, U 2, T 2);
   (U 6, U 4, T 7); (U 3, U 2, U 6); (T 9, T 5, T 4); (T 1, T 7, U 8); (U 6, U 1, T 1); (U 3, U 1, T 3);
   (T 6, U 1, T 9); (U 7, U 9, U 6)] = true.
Proof. vm_compute; reflexivity. Qed.

Example iso_108 : found
  [(U 2, B 3, U 9); (U 2, B 1, B 7); (B 8, U 0, B 9); (B 0, B 8, U 0); (B 7, B 8, U 7); (B 7, U 8, U 5);
   (B 6, B 3, U 3); (B 3, U 2, U 4); (U 0, U 7, B 3); (U 1, B 0, U 8); (U 0, U 0, B 8); (B 6, B 6, U 0);
   (B 8, B 1, U 2); (B 5, U 2, B 9); (B 2, U 6, B 3); (B 6, B 9, U 9); (U 1, B 7, U 1); (B 4, U 2, U 0);
   (U 4, B 7, B 4); (U 9, B 0, U 3)]
  [(U 2, T 3, U 9); (U 2, T 1, T 7); (T 8, U 0, T 9); (T 0, T 8, U 0); (T 7, T 8, U 7); (T 7, U 8, U 5);
   (T 6, T 3, U 3); (T 3, U 2, U 4); (U 0, U 7, T 3); (U 1, T 0, U 8); (U 0, U 0, T 8); (T 6, T 6, U 0);
   (T 8, T 1, U 2); (T 5, U 2, T 9); (T 2, U 6, T 3); (T 6, T 9, U 9); (U 1, T 7, U 1); (T 4, U 2, U 0);
   (U 4, T 7, T 4); (U 9, T 0, U 3)] = true.
Proof. vm_compute; reflexivity. Qed.

Example iso_109 : found
  [(U 0, U 8, U 7); (B 0, U 6, B 8); (U 3, U 0, B 2); (B 6, B 8, U 2); (U 3, B 1, U 9); (B 7, U 0, U 0);
   (B 0, U 2, B 2); (U 1, U 3, B 1); (U 9, B 1, B 2); (B 0, U 0, B 3); (B 2, B 7, U 8); (B 3, B 2, B 5);
   (B 7, B 8, U 7); (B 7, U 9, B 2); (B 0, B 1, B 1); (U 0, U 2, B 8); (B 5, B 6, U 3); (B 1, U 2, B 1);
   (U 0, U 1, B 2); (U 3, B 6, U 1)]
  [(U 0, U 8, U 7); (T 0, U 6, T 8); (U 3, U 0, T 2); (T 6, T 8, U 2); (U 3, T 1, U 9); (T 7, U 0, U 0);
   (T 0, U 2, T 2); (U 1, U 3, T 1); (U 9, T 1, T 2); (T 0, U 0, T 3); (T 2, T 7, U 8); (T 3, T 2, T 5);
   (T 7, T 8, U 7); (T 7, U 9, T 2); (T 0, T 1, T 1); (U 0, U 2, T 8); (T 5, T 6, U 3); (T 1, U 2, T 1);
   (U 0, U 1, T 2); (U 3, T 6, U 1)] = true.
Proof. vm_compute; reflexivity. Qed.

Example iso_110 : found
  [(U 8, U 7, U 3); (B 7, U 7, U 8); (B 7, U 8, B 0); (B 0, B 9, B 9); (U 4, B 3, U 6); (U 4, B 3, B 7);
   (U 4, U 9, U 6); (U 5, B 0, U 3); (B 2, B 1, B 2); (B 6, U 9, B 3); (B 7, U 6, B 3); (U 4, U 5, B 6);
   (U 5, B 9, B 3); (B 5, B 5, U 1); (B 0, B 6, U 6); (B 4, U 3, B 7); (U 8, B 2, B 9); (B 2, B 1, B 5);
   (U 4, U 6, B 9); (U 4, U 7, U 1)]
  [(U 8, U 7, U 3); (T 7, U 7, U 8); (T 7, U 8, T 0); (T 0, T 9, T 9); (U 4, T 3, U 6); (U 4, T 3, T 7);
   (U 4, U 9, U 6); (U 5, T 0, U 3); (T 2, T 1, T 2); (T 6, U 9, T 3); (T 7, U 6, T 3); (U 4, U 5, T 6);
   (U 5, T 9, T 3); (T 5, T 5, U 1); (T 0, T 6, U 6); (T 4, U 3, T 7); (U 8, T 2, T 9); (T 2, T 1, T 5);
   (U 4, U 6, T 9); (U 4, U 7, U 1)] = true.
Proof. vm_compute; reflexivity. Qed.

Example iso_111 : found
  [(B 0, U 6, B 8); (U 2, B 0, B 6); (B 9, B 0, B 2); (U 8, U 1, U 7); (B 6, U 3, B 2); (B 9, B 9, B 6);
   (B 3, U 0, B 0); (B 5, B 0, B 3); (U 8, B 9, B 7); (B 1, B 5, U 4); (B 9, B 6, B 6); (B 9, U 5, U 5);
   (B 3, U 3, U 2); (B 5, U 1, B 2); (U 0, B 7, U 8); (B 4, U 3, U 1); (B 5, B 4, B 0); (B 7, U 4, U 5);
   (U 2, U 2, B 2); (B 1, B 7, U 2)]
  [(T 0, U 6, T 8); (U 2, T 0, T 6); (T 9, T 0, T 2); (U 8, U 1, U 7); (T 6, U 3, T 2); (T 9, T 9, T 6);
   (T 3, U 0, T 0); (T 5, T 0, T 3); (U 8, T 9, T 7); (T 1, T 5, U 4); (T 9, T 6, T 6); (T 9, U 5, U 5);
   (T 3, U 3, U 2); (T 5, U 1, T 2); (U 0, T 7, U 8); (T 4, U 3, U 1); (T 5, T 4, T 0); (T 7, U 4, U 5);
   (U 2, U 2, T 2); (T 1, T 7, U 2)] = true.
Proof. vm_compute; reflexivity. Qed.

Example iso_112 : found
  [(U 5, U 7, B 8); (B 6, U 4, U 3); (B 5, B 1, U 5); (B 2, U 6, U 9); (U 2, U 0, U 7); (U 2, U 1, B 7);
   (B 6, U 2, B 3); (B 4, B 2, U 6); (B 2, U 0, U 8); (B 8, B 5, U 6); (B 1, U 7, U 4); (B 8, B 1, B 8);
   (B 9, B 5, B 0); (U 7, U 6, B 6); (U 0, B 9, U 3); (U 3, B 5, B 6); (B 9, U 9, U 7); (B 0, U 8, U 6);
   (B 4, B 3, B 5); (U 3, B 0, U 5)]
  [(U 5, U 7, T 8); (T 6, U 4, U 3); (T 5, T 1, U 5); (T 2, U 6, U 9); (U 2, U 0, U 7); (U 2, U 1, T 7);
   (T 6, U 2, T 3); (T 4, T 2, U 6); (T 2, U 0, U 8); (T 8, T 5, U 6); (T 1, U 7, U 4); (T 8, T 1, T 8);
   (T 9, T 5, T 0); (U 7, U 6, T 6); (U 0, T 9, U 3); (U 3, T 5, T 6); (T 9, U 9, U 7); (T 0, U 8, U 6);
   (T 4, T 3, T 5); (U 3, T 0, U 5)] = true.
Proof. vm_compute; reflexivity. Qed.

Example iso_113 : found
  [(B 2, U 4, U 5); (B 9, U 4, U 2); (U 5, U 0, B 6); (U 9, B 4, B 1); (B 1, U 3, U 8); (B 1, U 3, B 3);
   (U 7, U 9, B 9); (U 3, U 1, U 2); (B 6, B 6, B 5); (B 8, U 7, U 5); (B 3, U 3, U 3); (B 4, B 0, B 9);
   (B 1, B 7, U 9); (B 2, B 9, U 3); (U 8, B 7, B 8); (B 9, U 6, B 9); (U 4, U 9, B 2); (B 1, U 2, U 7);
   (U 5, U 2, B 0); (U 3, U 3, U 0)]
  [(T 2, U 4, U 5); (T 9, U 4, U 2); (U 5, U 0, T 6); (U 9, T 4, T 1); (T 1, U 3, U 8); (T 1, U 3, T 3);
   (U 7, U 9, T 9); (U 3, U 1, U 2); (T 6, T 6, T 5); (T 8, U 7, U 5); (T 3, U 3, U 3); (T 4, T 0, T 9);
   (T 1, T 7, U 9); (T 2, T 9, U 3); (U 8, T 7, T 8); (T 9, U 6, T 9); (U 4, U 9, T 2); (T 1, U 2, U 7);
   (U 5, U 2, T 0); (U 3, U 3, U 0)] = true.
Proof. vm_compute; reflexivity. Qed.

Example iso_114 : found
  [(B 5, B 9, B 7); (B 2, B 4, U 4); (B 5, B 4, U 3); (U 7, B 4, U 0); (B 1, B 6, U 3); (B 8, U 7, B 0);
   (B 0, U 8, B 1); (U 8, B 7, B 3); (B 3, U 3, U 5); (B 3, B 5, U 9); (B 2, U 9, B 3); (B 2, U 9, U 3);
   (B 3, B 5, B 9); (U 8, U 2, U 1); (U 3, B 4, B 2); (B 4, U 0, U 7); (B 3, U 3, U 9); (B 1, U 8, B 0);
   (U 4, U 2, U 6); (B 9, B 2, U 7)]
  [(T 5, T 9, T 7); (T 2, T 4, U 4); (T 5, T 4, U 3); (U 7, T 4, U 0); (T 1, T 6, U 3); (T 8, U 7, T 0);
   (T 0, U 8, T 1); (U 8, T 7, T 3); (T 3, U 3, U 5); (T 3, T 5, U 9); (T 2, U 9, T 3); (T 2, U 9, U 3);
   (T 3, T 5, T 9); (U 8, U 2, U 1); (U 3, T 4, T 2); (T 4, U 0, U 7); (T 3, U 3, U 9); (T 1, U 8, T 0);
   (U 4, U 2, U 6); (T 9, T 2, U 7)] = true.
Proof. vm_compute; reflexivity. Qed.

Example iso_115 : found
  [(B 9, U 0, B 0); (U 1, U 2, B 6); (U 4, B 7, U 0); (B 4, B 9, U 8); (B 1, U 8, U 0); (U 7, B 2, U 5);
   (B 5, U 1, U 7); (B 8, U 0, U 4); (U 6, B 5, U 8); (B 3, B 8, B 0); (U 8, B 0, U 3); (U 0, U 3, B 9);
   (B 7, B 8, B 4); (U 2, U 2, U 5); (U 6, B 1, B 0); (B 9, U 0, B 9); (U 2, U 1, U 8); (U 8, B 5, B 4);
   (B 9, U 2, B 8); (B 3, U 0, U 6)]
  [(T 9, U 0, T 0); (U 1, U 2, T 6); (U 4, T 7, U 0); (T 4, T 9, U 8); (T 1, U 8, U 0); (U 7, T 2, U 5);
   (T 5, U 1, U 7); (T 8, U 0, U 4); (U 6, T 5, U 8); (T 3, T 8, T 0); (U 8, T 0, U 3); (U 0, U 3, T 9);
   (T 7, T 8, T 4); (U 2, U 2, U 5); (U 6, T 1, T 0); (T 9, U 0, T 9); (U 2, U 1, U 8); (U 8, T 5, T 4);
   (T 9, U 2, T 8); (T 3, U 0, U 6)] = true.
Proof. vm_compute; reflexivity. Qed.

Example iso_116 : found
  [(U 2, U 2, B 3); (B 8, U 2, B 2); (U 4, U 8, U 3); (B 3, B 0, B 7); (B 2, B 3, B 1); (U 6, U 6, B 9);
   (U 6, B 3, U 2); (U 0, U 7, U 5); (B 0, B 4, B 4); (U 4, U 4, B 8); (U 9, B 8, B 3); (U 1, B 2, B 2);
   (B 8, B 4, U 9); (B 7, B 9, U 5); (U 0, U 7, U 0); (B 9, U 9, B 5); (B 8, B 2, U 7); (U 4, U 3, U 9);
   (U 5, U 6, U 7); (B 6, U 3, B 1)]
  [(U 2, U 2, T 3); (T 8, U 2, T 2); (U 4, U 8, U 3); (T 3, T 0, T 7); (T 2, T 3, T 1); (U 6, U 6, T 9);
   (U 6, T 3, U 2); (U 0, U 7, U 5); (T 0, T 4, T 4); (U 4, U 4, T 8); (U 9, T 8, T 3); (U 1, T 2, T 2);
   (T 8, T 4, U 9); (T 7, T 9, U 5); (U 0, U 7, U 0); (T 9, U 9, T 5); (T 8, T 2, U 7); (U 4, U 3, U 9);
   (U 5, U 6, U 7); (T 6, U 3, T 1)] = true.
Proof. vm_compute; reflexivity. Qed.

Example iso_117 : found
  [(U 1, U 8, U 5); (U 7, B 7, U 2); (B 8, U 7, U 1); (B 6, B 4, B 8); (B 3, U 8, U 5); (U 2, B 4, U 1);
   (B 5, U 7, B 6); (B 3, U 0, B 3); (B 6, B 9, B 8); (U 3, B 8, U 1); (U 2, U 7, U 4); (B 9, U 1, U 8);
   (B 2, B 0, B 0); (U 9, B 2, B 3); (U 6, B 9, U 4); (B 7, B 2, U 3); (U 1, U 4, B 0); (U 7, B 6, B 3);
   (B 5, U 0, U 6); (U 8, U 3, B 8)]
  [(U 1, U 8, U 5); (U 7, T 7, U 2); (T 8, U 7, U 1); (T 6, T 4, T 8); (T 3, U 8, U 5); (U 2, T 4, U 1);
   (T 5, U 7, T 6); (T 3, U 0, T 3); (T 6, T 9, T 8); (U 3, T 8, U 1); (U 2, U 7, U 4); (T 9, U 1, U 8);
   (T 2, T 0, T 0); (U 9, T 2, T 3); (U 6, T 9, U 4); (T 7, T 2, U 3); (U 1, U 4, T 0); (U 7, T 6, T 3);
   (T 5, U 0, U 6); (U 8, U 3, T 8)] = true.
Proof. vm_compute; reflexivity. Qed.

Example iso_118 : found
  [(U 7, B 7, B 0); (B 9, U 0, U 9); (U 7, B 5, U 3); (B 4, U 1, B 7); (U 0, B 2, U 0); (B 0, U 2, B 2);
   (B 2, U 2, U 0); (U 7, U 7, B 5); (U 8, B 1, U 1); (B 8, B 6, B 0); (B 3, B 0, U 4); (B 1, B 9, B 0);
   (U 8, U 3, U 0); (U 4, U 9, B 4); (U 8, U 8, B 3); (B 4, B 5, U 6); (B 8, U 6, U 6); (B 7, B 4, B 3);
   (U 5, B 3, B 4); (U 5, B 0, B 8)]
  [(U 7, T 7, T 0); (T 9, U 0, U 9); (U 7, T 5, U 3); (T 4, U 1, T 7); (U 0, T 2, U 0); (T 0, U 2, T 2);
   (T 2, U 2, U 0); (U 7, U 7, T 5); (U 8, T 1, U 1); (T 8, T 6, T 0); (T 3, T 0, U 4); (T 1, T 9, T 0);
   (U 8, U 3, U 0); (U 4, U 9, T 4); (U 8, U 8, T 3); (T 4, T 5, U 6); (T 8, U 6, U 6); (T 7, T 4, T 3);
   (U 5, T 3, T 4); (U 5, T 0, T 8)] = true.
Proof. vm_compute; reflexivity. Qed.

Example iso_119 : found
  [(B 1, B 6, B 7); (U 3, B 6, B 9); (B 5, B 1, B 9); (B 8, U 2, U 9); (U 7, B 9, B 2); (B 0, U 5, U 4);
   (U 9, U 7, U 8); (U 2, U 5, B 9); (U 6, B 7, U 0); (U 2, U 6, B 5); (U 3, B 2, B 8); (U 1, U 3, U 7);
   (U 8, U 7, B 7); (B 0, B 5, B 2); (B 5, U 0, B 8); (B 7, B 9, U 1); (B 1, B 7, U 3); (B 2, B 9, U 8);
   (U 5, B 0, U 7); (B 7, U 5, B 3)]
  [(T 1, T 6, T 7); (U 3, T 6, T 9); (T 5, T 1, T 9); (T 8, U 2, U 9); (U 7, T 9, T 2); (T 0, U 5, U 4);
   (U 9, U 7, U 8); (U 2, U 5, T 9); (U 6, T 7, U 0); (U 2, U 6, T 5); (U 3, T 2, T 8); (U 1, U 3, U 7);
   (U 8, U 7, T 7); (T 0, T 5, T 2); (T 5, U 0, T 8); (T 7, T 9, U 1); (T 1, T 7, U 3); (T 2, T 9, U 8);
   (U 5, T 0, U 7); (T 7, U 5, T 3)] = true.
Proof. vm_compute; reflexivity. Qed.

Example iso_120 : found
  [(U 3, U 7, B 8); (U 0, U 2, U 5); (B 0, U 9, B 6); (B 3, U 4, U 1); (B 3, B 6, U 5); (B 8, U 4, B 6);
   (U 5, B 3, B 9); (U 1, U 0, U 3); (U 2, U 1, B 9); (U 4, B 0, B 0); (B 2, U 7, B 0); (U 4, U 1, U 0);
   (B 9, B 0, B 2); (U 8, U 0, U 6); (U 3, U 3, U 7); (B 4, U 0, U 6); (B 4, B 2, U 9); (B 9, U 6, U 4);
   (U 7, B 7, B 1); (B 3, B 7, B 3)]
  [(U 3, U 7, T 8); (U 0, U 2, U 5); (T 0, U 9, T 6); (T 3, U 4, U 1); (T 3, T 6, U 5); (T 8, U 4, T 6);
   (U 5, T 3, T 9); (U 1, U 0, U 3); (U 2, U 1, T 9); (U 4, T 0, T 0); (T 2, U 7, T 0); (U 4, U 1, U 0);
   (T 9, T 0, T 2); (U 8, U 0, U 6); (U 3, U 3, U 7); (T 4, U 0, U 6); (T 4, T 2, U 9); (T 9, U 6, U 4);
   (U 7, T 7, T 1); (T 3, T 7, T 3)] = true.
Proof. vm_compute; reflexivity. Qed.

Example iso_121 : found
  [(U 6, U 7, U 3); (U 6, B 7, U 2); (U 6, U 0, B 5); (U 2, U 8, U 6); (B 1, U 0, B 1); (B 5, B 3, U 9);
   (U 9, U 8, U 6); (B 2, B 5, B 9); (U 8, B 2, U 3); (B 3, B 5, B 0); (U 5, U 9, B 9); (U 7, U 9, U 1);
   (U 8, U 5, U 2); (U 8, B 4, U 3); (B 2, U 1, U 2); (U 2, U 5, B 6); (U 6, U 4, U 2); (B 2, U 8, U 1);
   (B 1, B 3, B 7); (B 5, U 1, B 5)]
  [(U 6, U 7, U 3); (U 6, T 7, U 2); (U 6, U 0, T 5); (U 2, U 8, U 6); (T 1, U 0, T 1); (T 5, T 3, U 9);
   (U 9, U 8, U 6); (T 2, T 5, T 9); (U 8, T 2, U 3); (T 3, T 5, T 0); (U 5, U 9, T 9); (U 7, U 9, U 1);
   (U 8, U 5, U 2); (U 8, T 4, U 3); (T 2, U 1, U 2); (U 2, U 5, T 6); (U 6, U 4, U 2); (T 2, U 8, U 1);
   (T 1, T 3, T 7); (T 5, U 1, T 5)] = true.
Proof. vm_compute; reflexivity. Qed.

Example iso_122 : found
  [(U 8, B 5, U 2); (U 5, U 6, B 3); (B 5, B 9, U 6); (B 1, B 6, U 9); (B 1, B 2, U 5); (B 0, B 8, U 5);
   (U 4, U 6, U 8); (U 9, B 7, B 9); (B 6, U 6, B 9); (B 6, U 9, B 5); (B 8, U 6, U 1); (B 5, U 1, U 1);
   (B 0, B 4, B 4); (U 4, U 9, B 1); (B 3, B 1, B 6); (U 2, B 2, B 6); (U 8, B 7, U 2); (B 9, B 5, B 0);
   (U 1, U 2, B 3); (U 2, B 2, B 3)]
  [(U 8, T 5, U 2); (U 5, U 6, T 3); (T 5, T 9, U 6); (T 1, T 6, U 9); (T 1, T 2, U 5); (T 0, T 8, U 5);
   (U 4, U 6, U 8); (U 9, T 7, T 9); (T 6, U 6, T 9); (T 6, U 9, T 5); (T 8, U 6, U 1); (T 5, U 1, U 1);
   (T 0, T 4, T 4); (U 4, U 9, T 1); (T 3, T 1, T 6); (U 2, T 2, T 6); (U 8, T 7, U 2); (T 9, T 5, T 0);
   (U 1, U 2, T 3); (U 2, T 2, T 3)] = true.
Proof. vm_compute; reflexivity. Qed.

Example iso_123 : found
  [(B 4, U 0, B 8); (U 4, U 7, B 8); (B 3, B 1, U 2); (U 9, B 5, U 8); (B 3, B 8, U 7); (U 8, U 4, B 8);
   (B 1, B 7, B 6); (U 6, B 1, B 3); (B 6, U 3, U 0); (B 5, B 8, B 5); (B 9, B 3, U 0); (U 3, B 3, U 1);
   (B 3, U 9, B 4); (U 5, U 6, U 6); (B 4, B 5, B 7); (U 2, B 1, U 2); (B 7, B 0, B 1); (B 6, U 8, B 9);
   (U 3, U 9, B 4); (U 1, B 6, B 2)]
  [(T 4, U 0, T 8); (U 4, U 7, T 8); (T 3, T 1, U 2); (U 9, T 5, U 8); (T 3, T 8, U 7); (U 8, U 4, T 8);
   (T 1, T 7, T 6); (U 6, T 1, T 3); (T 6, U 3, U 0); (T 5, T 8, T 5); (T 9, T 3, U 0); (U 3, T 3, U 1);
   (T 3, U 9, T 4); (U 5, U 6, U 6); (T 4, T 5, T 7); (U 2, T 1, U 2); (T 7, T 0, T 1); (T 6, U 8, T 9);
   (U 3, U 9, T 4); (U 1, T 6, T 2)] = true.
Proof. vm_compute; reflexivity. Qed.

Example iso_124 : found
  [(U 2, U 9, B 6); (B 2, B 7, B 5); (B 4, B 6, B 6); (B 7, U 9, U 4); (U 5, B 7, U 1); (U 9, B 3, B 4);
   (U 7, U 2, U 8); (B 2, U 2, B 2); (U 1, B 9, B 9); (B 1, B 9, U 1); (U 8, U 0, B 8); (B 9, U 6, U 2);
   (B 6, B 2, B 2); (U 0, B 4, B 5); (B 1, U 7, U 6); (U 7, U 4, U 7); (B 5, U 6, U 1); (B 1, B 4, B 6);
   (B 7, B 7, B 2); (U 1, U 9, B 6)]
  [(U 2, U 9, T 6); (T 2, T 7, T 5); (T 4, T 6, T 6); (T 7, U 9, U 4); (U 5, T 7, U 1); (U 9, T 3, T 4);
   (U 7, U 2, U 8); (T 2, U 2, T 2); (U 1, T 9, T 9); (T 1, T 9, U 1); (U 8, U 0, T 8); (T 9, U 6, U 2);
   (T 6, T 2, T 2); (U 0, T 4, T 5); (T 1, U 7, U 6); (U 7, U 4, U 7); (T 5, U 6, U 1); (T 1, T 4, T 6);
   (T 7, T 7, T 2); (U 1, U 9, T 6)] = true.
Proof. vm_compute; reflexivity. Qed.

Example iso_125 : found
  [(B 0, U 2, B 9); (B 9, B 4, B 7); (B 6, U 6, B 5); (U 4, U 5, B 6); (B 2, U 0, B 1); (B 7, B 8, U 5);
   (U 3, B 4, U 2); (U 0, B 6, B 9); (U 9, B 9, B 5); (B 1, U 8, B 7); (B 8, U 6, B 6); (B 7, B 2, B 1);
   (U 8, U 4, U 0); (U 0, B 0, B 1); (U 9, U 2, B 2); (U 5, B 5, U 1); (B 4, B 6, U 2); (U 0, B 1, U 6);
   (B 5, U 0, B 4); (U 1, B 9, B 2)]
  [(T 0, U 2, T 9); (T 9, T 4, T 7); (T 6, U 6, T 5); (U 4, U 5, T 6); (T 2, U 0, T 1); (T 7, T 8, U 5);
   (U 3, T 4, U 2); (U 0, T 6, T 9); (U 9, T 9, T 5); (T 1, U 8, T 7); (T 8, U 6, T 6); (T 7, T 2, T 1);
   (U 8, U 4, U 0); (U 0, T 0, T 1); (U 9, U 2, T 2); (U 5, T 5, U 1); (T 4, T 6, U 2); (U 0, T 1, U 6);
   (T 5, U 0, T 4); (U 1, T 9, T 2)] = true.
Proof. vm_compute; reflexivity. Qed.

Example iso_126 : found
  [(U 7, B 7, B 5); (B 2, U 2, U 5); (B 2, B 6, B 2); (U 9, B 0, U 6); (B 4, B 3, U 7); (U 0, U 5, U 0);
   (B 0, U 4, U 0); (U 8, B 3, B 7); (B 3, U 9, B 5); (U 7, U 0, U 8); (B 8, B 2, B 6); (B 9, B 0, U 0);
   (U 9, B 2, B 1); (B 4, B 8, B 7); (B 3, U 4, U 5); (B 8, B 0, U 3); (B 1, B 5, U 7); (U 2, B 2, U 2);
   (B 9, U 5, B 0); (B 1, B 9, U 4)]
  [(U 7, T 7, T 5); (T 2, U 2, U 5); (T 2, T 6, T 2); (U 9, T 0, U 6); (T 4, T 3, U 7); (U 0, U 5, U 0);
   (T 0, U 4, U 0); (U 8, T 3, T 7); (T 3, U 9, T 5); (U 7, U 0, U 8); (T 8, T 2, T 6); (T 9, T 0, U 0);
   (U 9, T 2, T 1); (T 4, T 8, T 7); (T 3, U 4, U 5); (T 8, T 0, U 3); (T 1, T 5, U 7); (U 2, T 2, U 2);
   (T 9, U 5, T 0); (T 1, T 9, U 4)] = true.
Proof. vm_compute; reflexivity. Qed.

Example iso_127 : found
  [(B 9, U 1, U 2); (U 8, B 1, B 2); (B 3, B 5, B 6); (B 9, B 5, U 6); (B 4, B 1, B 9); (U 2, B 2, U 4);
   (B 8, U 1, B 1); (B 6, B 9, B 1); (B 8, B 1, B 6); (U 9, B 6, U 5); (B 7, U 1, B 9); (U 1, U 0, B 7);
   (B 3, B 2, U 4); (B 2, B 0, U 0); (B 8, U 0, B 8); (U 6, U 9, U 1); (B 1, U 8, U 4); (B 8, U 5, U 3);
   (U 0, U 6, U 7); (B 4, B 3, B 2)]
  [(T 9, U 1, U 2); (U 8, T 1, T 2); (T 3, T 5, T 6); (T 9, T 5, U 6); (T 4, T 1, T 9); (U 2, T 2, U 4);
   (T 8, U 1, T 1); (T 6, T 9, T 1); (T 8, T 1, T 6); (U 9, T 6, U 5); (T 7, U 1, T 9); (U 1, U 0, T 7);
   (T 3, T 2, U 4); (T 2, T 0, U 0); (T 8, U 0, T 8); (U 6, U 9, U 1); (T 1, U 8, U 4); (T 8, U 5, U 3);
   (U 0, U 6, U 7); (T 4, T 3, T 2)] = true.
Proof. vm_compute; reflexivity. Qed.

Example iso_128 : found
  [(B 9, U 1, U 2); (B 6, B 9, B 7); (B 2, U 7, B 3); (B 1, U 5, B 6); (U 9, U 5, B 5); (U 5, B 4, U 8);
   (B 7, U 1, U 5); (U 6, B 5, U 9); (U 8, U 4, U 1); (B 0, U 0, U 4); (U 3, U 4, U 9); (U 6, B 2, U 0);
   (U 4, B 7, U 0); (B 6, B 3, B 2); (U 3, U 4, B 9); (U 7, U 5, U 4); (U 9, B 2, B 5); (U 2, B 0, B 2);
   (B 2, U 1, U 2); (U 9, B 0, U 2)]
  [(T 9, U 1, U 2); (T 6, T 9, T 7); (T 2, U 7, T 3); (T 1, U 5, T 6); (U 9, U 5, T 5); (U 5, T 4, U 8);
   (T 7, U 1, U 5); (U 6, T 5, U 9); (U 8, U 4, U 1); (T 0, U 0, U 4); (U 3, U 4, U 9); (U 6, T 2, U 0);
   (U 4, T 7, U 0); (T 6, T 3, T 2); (U 3, U 4, T 9); (U 7, U 5, U 4); (U 9, T 2, T 5); (U 2, T 0, T 2);
   (T 2, U 1, U 2); (U 9, T 0, U 2)] = true.
Proof. vm_compute; reflexivity. Qed.

Example iso_129 : found
  [(U 9, B 8, B 9); (B 4, B 6, B 3); (B 4, B 0, U 3); (U 8, U 7, B 0); (U 6, U 4, B 9); (B 4, U 8, U 5);
   (B 2, B 0, U 1); (B 8, U 5, U 7); (B 7, B 3, B 8); (B 4, U 6, B 2); (U 4, U 8, B 5); (B 8, U 9, U 6);
   (B 1, U 0, U 9); (U 5, U 5, U 1); (B 2, U 2, U 4); (B 7, U 0, B 1); (U 4, U 3, U 7); (B 9, U 3, B 1);
   (U 3, B 9, U 0); (U 2, U 8, U 3)]
  [(U 9, T 8, T 9); (T 4, T 6, T 3); (T 4, T 0, U 3); (U 8, U 7, T 0); (U 6, U 4, T 9); (T 4, U 8, U 5);
   (T 2, T 0, U 1); (T 8, U 5, U 7); (T 7, T 3, T 8); (T 4, U 6, T 2); (U 4, U 8, T 5); (T 8, U 9, U 6);
   (T 1, U 0, U 9); (U 5, U 5, U 1); (T 2, U 2, U 4); (T 7, U 0, T 1); (U 4, U 3, U 7); (T 9, U 3, T 1);
   (U 3, T 9, U 0); (U 2, U 8, U 3)] = true.
Proof. vm_compute; reflexivity. Qed.

Example iso_130 : found
  [(B 4, B 0, B 3); (B 5, U 3, B 8); (U 3, B 5, B 5); (U 8, B 8, B 4); (B 3, B 3, U 9); (B 7, U 6, U 6);
   (B 7, B 0, U 8); (B 6, B 2, B 2); (B 6, B 4, U 5); (U 5, B 4, B 7); (U 2, U 6, B 6); (U 3, U 3, B 7);
   (B 5, U 5, U 9); (U 6, U 2, B 1); (U 5, B 3, B 6); (B 6, U 4, B 8); (U 9, U 9, U 9); (B 1, B 6, B 4);
   (U 5, U 9, U 7); (B 8, B 7, U 6)]
  [(T 4, T 0, T 3); (T 5, U 3, T 8); (U 3, T 5, T 5); (U 8, T 8, T 4); (T 3, T 3, U 9); (T 7, U 6, U 6);
   (T 7, T 0, U 8); (T 6, T 2, T 2); (T 6, T 4, U 5); (U 5, T 4, T 7); (U 2, U 6, T 6); (U 3, U 3, T 7);
   (T 5, U 5, U 9); (U 6, U 2, T 1); (U 5, T 3, T 6); (T 6, U 4, T 8); (U 9, U 9, U 9); (T 1, T 6, T 4);
   (U 5, U 9, U 7); (T 8, T 7, U 6)] = true.
Proof. vm_compute; reflexivity. Qed.

Example iso_131 : found
  [(U 2, B 4, U 7); (U 4, B 5, U 7); (B 1, B 4, U 8); (B 4, B 9, B 3); (U 3, B 1, U 0); (U 1, B 5, B 8);
   (U 5, B 3, U 4); (U 6, U 6, B 2); (U 0, B 2, U 1); (U 3, U 3, U 5); (U 5, U 2, U 2); (B 3, U 4, U 8);
   (B 2, U 7, U 1); (U 9, U 3, B 6); (U 4, U 1, U 9); (U 3, U 0, B 4); (U 3, B 6, U 4); (U 0, U 7, B 4);
   (B 9, B 3, U 6); (U 7, B 7, U 5)]
  [(U 2, T 4, U 7); (U 4, T 5, U 7); (T 1, T 4, U 8); (T 4, T 9, T 3); (U 3, T 1, U 0); (U 1, T 5, T 8);
   (U 5, T 3, U 4); (U 6, U 6, T 2); (U 0, T 2, U 1); (U 3, U 3, U 5); (U 5, U 2, U 2); (T 3, U 4, U 8);
   (T 2, U 7, U 1); (U 9, U 3, T 6); (U 4, U 1, U 9); (U 3, U 0, T 4); (U 3, T 6, U 4); (U 0, U 7, T 4);
   (T 9, T 3, U 6); (U 7, T 7, U 5)] = true.
Proof. vm_compute; reflexivity. Qed.

Example iso_132 : found
  [(B 9, U 6, U 5); (U 7, U 5, B 2); (B 9, B 8, B 3); (U 1, B 7, B 1); (B 7, B 5, U 0); (U 0, U 7, B 1);
   (U 2, U 4, U 2); (B 6, B 4, B 0); (B 4, U 3, B 0); (B 5, B 7, U 4); (U 7, U 9, U 8); (U 3, B 4, U 3);
   (U 0, U 8, B 8); (U 0, B 6, B 5); (U 5, U 4, U 3); (U 7, U 8, B 6); (U 7, B 6, U 2); (B 7, U 5, B 0);
   (B 4, B 1, B 9); (B 5, U 5, U 6)]
  [(T 9, U 6, U 5); (U 7, U 5, T 2); (T 9, T 8, T 3); (U 1, T 7, T 1); (T 7, T 5, U 0); (U 0, U 7, T 1);
   (U 2, U 4, U 2); (T 6, T 4, T 0); (T 4, U 3, T 0); (T 5, T 7, U 4); (U 7, U 9, U 8); (U 3, T 4, U 3);
   (U 0, U 8, T 8); (U 0, T 6, T 5); (U 5, U 4, U 3); (U 7, U 8, T 6); (U 7, T 6, U 2); (T 7, U 5, T 0);
   (T 4, T 1, T 9); (T 5, U 5, U 6)] = true.
Proof. vm_compute; reflexivity. Qed.

Example iso_133 : found
  [(U 9, B 5, U 1); (U 9, B 1, U 9); (U 9, U 8, U 4); (B 6, B 7, U 3); (B 2, U 5, U 9); (B 3, B 7, U 6);
   (B 0, U 7, U 7); (B 0, U 5, U 2); (B 5, U 1, B 2); (B 5, B 2, B 9); (B 9, U 4, B 1); (B 9, U 2, U 4);
   (U 3, B 6, U 8); (B 0, U 5, U 5); (U 0, U 1, B 0); (U 4, B 4, U 6); (B 6, U 5, U 9); (U 8, B 7, U 2);
   (B 5, B 8, B 4); (B 5, U 8, B 4)]
  [(U 9, T 5, U 1); (U 9, T 1, U 9); (U 9, U 8, U 4); (T 6, T 7, U 3); (T 2, U 5, U 9); (T 3, T 7, U 6);
   (T 0, U 7, U 7); (T 0, U 5, U 2); (T 5, U 1, T 2); (T 5, T 2, T 9); (T 9, U 4, T 1); (T 9, U 2, U 4);
   (U 3, T 6, U 8); (T 0, U 5, U 5); (U 0, U 1, T 0); (U 4, T 4, U 6); (T 6, U 5, U 9); (U 8, T 7, U 2);
   (T 5, T 8, T 4); (T 5, U 8, T 4)] = true.
Proof. vm_compute; reflexivity. Qed.

Example iso_134 : found
  [(U 9, U 9, B 8); (B 7, U 6, U 9); (B 8, U 7, B 3); (U 0, U 1, U 4); (B 2, U 9, U 3); (U 7, U 9, B 1);
   (U 8, U 8, B 5); (U 3, B 9, B 9); (B 7, B 6, U 3); (U 1, U 6, B 9); (U 0, B 3, B 6); (B 4, B 9, U 5);
   (U 5, U 0, U 9); (U 2, B 9, B 8); (B 1, U 9, B 3); (U 8, U 6, U 9); (B 7, U 4, B 3); (B 2, U 4, U 2);
   (B 7, U 3, B 9); (B 4, B 1, U 4)]
  [(U 9, U 9, T 8); (T 7, U 6, U 9); (T 8, U 7, T 3); (U 0, U 1, U 4); (T 2, U 9, U 3); (U 7, U 9, T 1);
   (U 8, U 8, T 5); (U 3, T 9, T 9); (T 7, T 6, U 3); (U 1, U 6, T 9); (U 0, T 3, T 6); (T 4, T 9, U 5);
   (U 5, U 0, U 9); (U 2, T 9, T 8); (T 1, U 9, T 3); (U 8, U 6, U 9); (T 7, U 4, T 3); (T 2, U 4, U 2);
   (T 7, U 3, T 9); (T 4, T 1, U 4)] = true.
Proof. vm_compute; reflexivity. Qed.

Example iso_135 : found
  [(B 6, U 9, U 9); (B 5, B 4, U 7); (B 2, B 2, B 1); (B 6, U 5, B 8); (B 8, B 4, B 7); (U 9, B 9, B 8);
   (U 0, B 8, B 9); (B 1, B 5, B 8); (U 1, U 6, B 1); (B 3, B 7, B 1); (B 8, B 6, B 1); (U 7, B 7, U 8);
   (U 2, B 6, B 3); (B 0, B 6, B 5); (U 0, U 3, U 7); (B 0, U 8, U 7); (U 4, B 0, U 4); (U 2, B 5, U 0);
   (B 8, U 3, U 6); (U 6, B 9, U 0)]
  [(T 6, U 9, U 9); (T 5, T 4, U 7); (T 2, T 2, T 1); (T 6, U 5, T 8); (T 8, T 4, T 7); (U 9, T 9, T 8);
   (U 0, T 8, T 9); (T 1, T 5, T 8); (U 1, U 6, T 1); (T 3, T 7, T 1); (T 8, T 6, T 1); (U 7, T 7, U 8);
   (U 2, T 6, T 3); (T 0, T 6, T 5); (U 0, U 3, U 7); (T 0, U 8, U 7); (U 4, T 0, U 4); (U 2, T 5, U 0);
   (T 8, U 3, U 6); (U 6, T 9, U 0)] = true.
Proof. vm_compute; reflexivity. Qed.

Example iso_136 : found
  [(B 8, U 5, B 1); (B 0, B 2, U 3); (B 3, B 4, B 3); (B 7, B 6, B 7); (U 9, U 3, B 2); (U 1, U 7, U 3);
   (B 9, B 0, B 2); (U 9, U 1, U 5); (U 5, U 7, U 6); (B 8, U 9, B 8); (U 8, B 9, B 5); (U 3, U 7, U 0);
   (B 8, U 3, B 5); (B 8, B 9, U 8); (U 1, B 0, U 5); (U 5, U 8, U 9); (U 7, U 6, B 0); (U 0, B 7, U 3);
   (B 5, B 7, B 1); (B 8, U 4, U 7)]
  [(T 8, U 5, T 1); (T 0, T 2, U 3); (T 3, T 4, T 3); (T 7, T 6, T 7); (U 9, U 3, T 2); (U 1, U 7, U 3);
   (T 9, T 0, T 2); (U 9, U 1, U 5); (U 5, U 7, U 6); (T 8, U 9, T 8); (U 8, T 9, T 5); (U 3, U 7, U 0);
   (T 8, U 3, T 5); (T 8, T 9, U 8); (U 1, T 0, U 5); (U 5, U 8, U 9); (U 7, U 6, T 0); (U 0, T 7, U 3);
   (T 5, T 7, T 1); (T 8, U 4, U 7)] = true.
Proof. vm_compute; reflexivity. Qed.

Example iso_137 : found
  [(U 6, U 1, U 2); (B 2, B 6, B 7); (B 6, B 6, U 3); (B 1, B 1, B 8); (U 2, U 1, B 1); (B 8, U 7, U 3);
   (U 0, B 9, U 9); (B 1, B 9, B 6); (B 4, U 1, U 5); (U 9, B 5, U 1); (B 6, B 1, B 8); (U 1, B 8, B 6);
   (U 1, U 3, U 7); (U 3, U 7, B 7); (U 4, B 5, U 5); (U 0, B 8, U 7); (B 9, B 4, U 1); (U 2, B 7, B 1);
   (U 8, U 9, B 1); (B 5, U 1, B 9)]
  [(U 6, U 1, U 2); (T 2, T 6, T 7); (T 6, T 6, U 3); (T 1, T 1, T 8); (U 2, U 1, T 1); (T 8, U 7, U 3);
   (U 0, T 9, U 9); (T 1, T 9, T 6); (T 4, U 1, U 5); (U 9, T 5, U 1); (T 6, T 1, T 8); (U 1, T 8, T 6);
   (U 1, U 3, U 7); (U 3, U 7, T 7); (U 4, T 5, U 5); (U 0, T 8, U 7); (T 9, T 4, U 1); (U 2, T 7, T 1);
   (U 8, U 9, T 1); (T 5, U 1, T 9)] = true.
Proof. vm_compute; reflexivity. Qed.

Example iso_138 : found
  [(B 4, U 4, B 7); (B 4, U 3, U 9); (U 1, U 5, U 0); (B 4, B 5, U 8); (B 2, U 4, U 8); (B 5, B 7, B 5);
   (B 9, B 0, U 5); (U 1, U 7, B 5); (U 7, B 8, U 3); (U 4, B 9, U 4); (B 6, B 9, B 7); (B 8, U 2, U 2);
   (U 6, U 3, U 8); (B 5, B 3, U 2); (B 4, B 5, U 9); (U 5, U 2, B 1); (U 3, B 4, U 1); (B 8, B 4, U 8);
   (U 4, B 9, B 4); (B 4, U 2, U 2)]
  [(T 4, U 4, T 7); (T 4, U 3, U 9); (U 1, U 5, U 0); (T 4, T 5, U 8); (T 2, U 4, U 8); (T 5, T 7, T 5);
   (T 9, T 0, U 5); (U 1, U 7, T 5); (U 7, T 8, U 3); (U 4, T 9, U 4); (T 6, T 9, T 7); (T 8, U 2, U 2);
   (U 6, U 3, U 8); (T 5, T 3, U 2); (T 4, T 5, U 9); (U 5, U 2, T 1); (U 3, T 4, U 1); (T 8, T 4, U 8);
   (U 4, T 9, T 4); (T 4, U 2, U 2)] = true.
Proof. vm_compute; reflexivity. Qed.

Example iso_139 : found
  [(U 2, U 3, U 9); (U 9, B 7, U 2); (B 7, U 1, U 4); (B 8, B 9, U 9); (B 4, U 8, B 1); (B 8, B 3, U 6);
   (U 7, B 0, B 7); (U 6, U 3, B 6); (U 6, U 3, B 1); (U 2, U 3, B 3); (B 5, B 9, B 2); (U 2, B 7, U 3);
   (B 1, B 4, B 7); (B 9, U 6, U 6); (U 6, B 0, B 0); (U 3, B 1, U 1); (U 7, B 6, U 4); (U 8, U 6, U 6);
   (B 4, B 4, B 6); (B 5, U 4, B 0)]
  [(U 2, U 3, U 9); (U 9, T 7, U 2); (T 7, U 1, U 4); (T 8, T 9, U 9); (T 4, U 8, T 1); (T 8, T 3, U 6);
   (U 7, T 0, T 7); (U 6, U 3, T 6); (U 6, U 3, T 1); (U 2, U 3, T 3); (T 5, T 9, T 2); (U 2, T 7, U 3);
   (T 1, T 4, T 7); (T 9, U 6, U 6); (U 6, T 0, T 0); (U 3, T 1, U 1); (U 7, T 6, U 4); (U 8, U 6, U 6);
   (T 4, T 4, T 6); (T 5, U 4, T 0)] = true.
Proof. vm_compute; reflexivity. Qed.

Example iso_140 : found
  [(U 2, U 2, B 9); (B 2, U 9, U 3); (B 0, U 4, B 3); (B 4, B 5, B 0); (B 9, U 4, B 7); (B 6, U 2, B 9);
   (B 5, U 1, B 1); (B 3, U 9, U 7); (U 1, U 0, U 3); (B 7, U 9, B 9); (B 3, U 5, U 3); (U 6, U 5, U 9);
   (B 1, B 3, B 8); (U 7, U 8, B 8); (U 3, U 3, B 3); (U 2, B 5, U 8); (U 0, B 4, U 0); (B 0, B 1, B 2);
   (U 7, U 5, U 5); (U 1, B 3, B 9)]
  [(U 2, U 2, T 9); (T 2, U 9, U 3); (T 0, U 4, T 3); (T 4, T 5, T 0); (T 9, U 4, T 7); (T 6, U 2, T 9);
   (T 5, U 1, T 1); (T 3, U 9, U 7); (U 1, U 0, U 3); (T 7, U 9, T 9); (T 3, U 5, U 3); (U 6, U 5, U 9);
   (T 1, T 3, T 8); (U 7, U 8, T 8); (U 3, U 3, T 3); (U 2, T 5, U 8); (U 0, T 4, U 0); (T 0, T 1, T 2);
   (U 7, U 5, U 5); (U 1, T 3, T 9)] = true.
Proof. vm_compute; reflexivity. Qed.

Example iso_141 : found
  [(U 9, B 7, B 2); (U 9, U 9, B 4); (U 2, U 3, U 1); (U 1, U 1, B 8); (U 6, B 9, U 1); (U 0, U 8, B 9);
   (U 5, B 4, U 0); (U 0, B 0, U 7); (B 0, B 6, U 4); (B 1, U 0, B 3); (B 5, U 3, U 8); (U 8, U 5, U 5);
   (U 5, B 8, U 6); (B 1, U 8, U 8); (B 9, B 7, B 7); (U 8, U 5, U 1); (B 2, B 2, B 0); (B 1, B 2, B 6);
   (B 8, U 1, U 9); (U 9, U 4, B 8)]
  [(U 9, T 7, T 2); (U 9, U 9, T 4); (U 2, U 3, U 1); (U 1, U 1, T 8); (U 6, T 9, U 1); (U 0, U 8, T 9);
   (U 5, T 4, U 0); (U 0, T 0, U 7); (T 0, T 6, U 4); (T 1, U 0, T 3); (T 5, U 3, U 8); (U 8, U 5, U 5);
   (U 5, T 8, U 6); (T 1, U 8, U 8); (T 9, T 7, T 7); (U 8, U 5, U 1); (T 2, T 2, T 0); (T 1, T 2, T 6);
   (T 8, U 1, U 9); (U 9, U 4, T 8)] = true.
Proof. vm_compute; reflexivity. Qed.

Example iso_142 : found
  [(B 0, U 9, U 7); (B 5, B 8, B 3); (U 4, B 6, B 1); (U 5, B 6, B 9); (U 2, U 4, B 9); (U 2, U 0, U 7);
   (B 0, B 0, B 8); (U 8, B 8, B 7); (B 4, B 5, U 2); (U 6, B 9, U 8); (U 6, U 8, B 5); (U 9, B 6, B 6);
   (U 4, B 9, U 9); (U 5, B 5, B 9); (B 4, U 8, B 9); (B 5, U 4, B 9); (B 8, B 3, U 4); (U 2, B 7, B 2);
   (U 1, B 6, B 6); (B 6, U 0, U 0)]
  [(T 0, U 9, U 7); (T 5, T 8, T 3); (U 4, T 6, T 1); (U 5, T 6, T 9); (U 2, U 4, T 9); (U 2, U 0, U 7);
   (T 0, T 0, T 8); (U 8, T 8, T 7); (T 4, T 5, U 2); (U 6, T 9, U 8); (U 6, U 8, T 5); (U 9, T 6, T 6);
   (U 4, T 9, U 9); (U 5, T 5, T 9); (T 4, U 8, T 9); (T 5, U 4, T 9); (T 8, T 3, U 4); (U 2, T 7, T 2);
   (U 1, T 6, T 6); (T 6, U 0, U 0)] = true.
Proof. vm_compute; reflexivity. Qed.

Example iso_143 : found
  [(B 7, B 8, B 4); (B 4, B 8, B 8); (B 5, U 6, U 0); (B 4, B 5, U 3); (B 8, U 6, U 4); (B 8, B 5, U 4);
   (B 8, U 6, B 3); (B 8, U 3, U 2); (U 3, B 7, U 7); (B 6, B 8, B 3); (U 5, B 0, U 0); (U 5, U 2, B 6);
   (U 6, U 8, U 2); (U 8, U 9, U 8); (U 0, U 4, U 0); (B 3, B 8, B 0); (B 1, U 0, B 1); (B 0, B 5, B 7);
   (U 1, U 4, U 8); (B 8, B 9, B 1)]
  [(T 7, T 8, T 4); (T 4, T 8, T 8); (T 5, U 6, U 0); (T 4, T 5, U 3); (T 8, U 6, U 4); (T 8, T 5, U 4);
   (T 8, U 6, T 3); (T 8, U 3, U 2); (U 3, T 7, U 7); (T 6, T 8, T 3); (U 5, T 0, U 0); (U 5, U 2, T 6);
   (U 6, U 8, U 2); (U 8, U 9, U 8); (U 0, U 4, U 0); (T 3, T 8, T 0); (T 1, U 0, T 1); (T 0, T 5, T 7);
   (U 1, U 4, U 8); (T 8, T 9, T 1)] = true.
Proof. vm_compute; reflexivity. Qed.

Example iso_144 : found
  [(U 7, B 1, B 7); (U 8, U 5, B 4); (U 9, B 0, B 3); (U 8, B 1, B 3); (B 3, U 4, U 1); (U 8, U 9, B 2);
   (U 5, B 7, B 9); (B 5, U 3, U 0); (B 2, U 3, U 3); (U 2, U 4, B 4); (U 0, B 5, B 6); (B 5, B 1, U 5);
   (B 9, B 2, B 1); (B 4, B 4, U 6); (B 8, B 3, U 4); (U 1, U 5, B 0); (U 0, B 2, B 2); (B 3, U 9, B 2);
   (B 8, B 9, B 6); (B 5, B 7, U 2)]
  [(U 7, T 1, T 7); (U 8, U 5, T 4); (U 9, T 0, T 3); (U 8, T 1, T 3); (T 3, U 4, U 1); (U 8, U 9, T 2);
   (U 5, T 7, T 9); (T 5, U 3, U 0); (T 2, U 3, U 3); (U 2, U 4, T 4); (U 0, T 5, T 6); (T 5, T 1, U 5);
   (T 9, T 2, T 1); (T 4, T 4, U 6); (T 8, T 3, U 4); (U 1, U 5, T 0); (U 0, T 2, T 2); (T 3, U 9, T 2);
   (T 8, T 9, T 6); (T 5, T 7, U 2)] = true.
Proof. vm_compute; reflexivity. Qed.

Example iso_145 : found
  [(U 4, B 5, U 0); (B 5, U 5, B 3); (U 5, B 8, U 1); (U 2, U 1, B 5); (U 9, B 4, B 3); (B 3, U 5, U 4);
   (U 2, U 9, B 5); (U 5, B 4, B 2); (U 9, U 9, B 1); (B 5, B 5, B 4); (U 5, B 4, B 6); (B 6, B 8, B 3);
   (B 5, U 4, B 4); (U 1, U 5, U 4); (U 5, U 3, U 2); (U 6, U 9, U 8); (U 6, B 6, U 0); (U 1, B 1, U 8);
   (U 6, B 6, U 7); (B 1, B 6, U 4)]
  [(U 4, T 5, U 0); (T 5, U 5, T 3); (U 5, T 8, U 1); (U 2, U 1, T 5); (U 9, T 4, T 3); (T 3, U 5, U 4);
   (U 2, U 9, T 5); (U 5, T 4, T 2); (U 9, U 9, T 1); (T 5, T 5, T 4); (U 5, T 4, T 6); (T 6, T 8, T 3);
   (T 5, U 4, T 4); (U 1, U 5, U 4); (U 5, U 3, U 2); (U 6, U 9, U 8); (U 6, T 6, U 0); (U 1, T 1, U 8);
   (U 6, T 6, U 7); (T 1, T 6, U 4)] = true.
Proof. vm_compute; reflexivity. Qed.

Example iso_146 : found
  [(B 4, B 4, U 0); (B 9, B 5, U 7); (U 7, B 5, B 5); (B 0, U 7, B 1); (B 4, B 0, B 1); (U 2, U 4, B 3);
   (B 9, B 8, B 7); (B 4, U 0, B 8); (B 8, B 2, U 0); (U 4, B 9, B 3); (B 4, U 2, U 9); (U 3, B 2, B 0);
   (B 3, B 4, B 0); (B 5, B 3, B 3); (U 6, U 2, U 7); (B 9, B 5, B 8); (B 3, U 3, B 2); (U 0, U 7, U 2);
   (U 1, B 8, B 5); (B 3, U 0, B 8)]
  [(T 4, T 4, U 0); (T 9, T 5, U 7); (U 7, T 5, T 5); (T 0, U 7, T 1); (T 4, T 0, T 1); (U 2, U 4, T 3);
   (T 9, T 8, T 7); (T 4, U 0, T 8); (T 8, T 2, U 0); (U 4, T 9, T 3); (T 4, U 2, U 9); (U 3, T 2, T 0);
   (T 3, T 4, T 0); (T 5, T 3, T 3); (U 6, U 2, U 7); (T 9, T 5, T 8); (T 3, U 3, T 2); (U 0, U 7, U 2);
   (U 1, T 8, T 5); (T 3, U 0, T 8)] = true.
Proof. vm_compute; reflexivity. Qed.

Example iso_147 : found
  [(B 1, B 4, B 9); (B 5, B 1, U 7); (B 0, B 5, U 2); (B 1, B 6, U 7); (B 1, U 0, U 4); (U 6, U 7, U 6);
   (U 5, B 3, U 1); (U 8, B 3, B 4); (U 2, B 1, U 3); (U 9, B 3, B 1); (U 0, B 0, U 7); (U 1, U 1, B 6);
   (U 7, U 1, U 8); (U 1, B 5, B 4); (B 7, B 4, B 2); (B 8, B 7, B 1); (B 6, B 7, B 2); (B 7, U 3, U 6);
   (U 1, U 1, U 2); (U 8, B 5, U 7)]
  [(T 1, T 4, T 9); (T 5, T 1, U 7); (T 0, T 5, U 2); (T 1, T 6, U 7); (T 1, U 0, U 4); (U 6, U 7, U 6);
   (U 5, T 3, U 1); (U 8, T 3, T 4); (U 2, T 1, U 3); (U 9, T 3, T 1); (U 0, T 0, U 7); (U 1, U 1, T 6);
   (U 7, U 1, U 8); (U 1, T 5, T 4); (T 7, T 4, T 2); (T 8, T 7, T 1); (T 6, T 7, T 2); (T 7, U 3, U 6);
   (U 1, U 1, U 2); (U 8, T 5, U 7)] = true.
Proof. vm_compute; reflexivity. Qed.

Example iso_148 : found
  [(U 1, U 0, B 0); (U 9, U 2, U 1); (B 6, U 1, U 5); (U 4, B 6, U 6); (U 8, U 5, B 6); (U 2, U 0, U 1);
   (B 7, U 7, B 5); (B 0, U 4, U 7); (B 7, U 7, U 8); (B 4, B 5, B 3); (B 8, U 2, U 7); (B 8, B 4, B 9);
   (U 0, B 4, U 5); (B 2, U 1, B 2); (U 9, B 2, U 8); (B 1, U 8, B 6); (U 4, B 5, U 0); (B 9, U 8, B 3);
   (U 3, B 0, B 7); (U 6, B 9, U 1)]
  [(U 1, U 0, T 0); (U 9, U 2, U 1); (T 6, U 1, U 5); (U 4, T 6, U 6); (U 8, U 5, T 6); (U 2, U 0, U 1);
   (T 7, U 7, T 5); (T 0, U 4, U 7); (T 7, U 7, U 8); (T 4, T 5, T 3); (T 8, U 2, U 7); (T 8, T 4, T 9);
   (U 0, T 4, U 5); (T 2, U 1, T 2); (U 9, T 2, U 8); (T 1, U 8, T 6); (U 4, T 5, U 0); (T 9, U 8, T 3);
   (U 3, T 0, T 7); (U 6, T 9, U 1)] = true.
Proof. vm_compute; reflexivity. Qed.

Example iso_149 : found
  [(U 5, B 4, B 8); (U 6, B 1, U 2); (B 2, U 1, B 5); (U 6, B 4, B 5); (B 0, B 3, U 1); (B 4, U 7, B 9);
   (U 9, U 5, B 2); (U 5, B 5, B 7); (U 1, U 1, U 2); (U 3, B 1, B 6); (U 4, B 7, U 1); (U 6, U 0, B 0);
   (U 6, B 7, B 3); (B 9, U 6, B 0); (U 8, U 9, B 5); (U 7, B 2, U 2); (U 2, U 3, B 1); (U 5, U 2, B 5);
   (U 6, B 7, U 5); (B 3, U 4, U 7)]
  [(U 5, T 4, T 8); (U 6, T 1, U 2); (T 2, U 1, T 5); (U 6, T 4, T 5); (T 0, T 3, U 1); (T 4, U 7, T 9);
   (U 9, U 5, T 2); (U 5, T 5, T 7); (U 1, U 1, U 2); (U 3, T 1, T 6); (U 4, T 7, U 1); (U 6, U 0, T 0);
   (U 6, T 7, T 3); (T 9, U 6, T 0); (U 8, U 9, T 5); (U 7, T 2, U 2); (U 2, U 3, T 1); (U 5, U 2, T 5);
   (U 6, T 7, U 5); (T 3, U 4, U 7)] = true.
Proof. vm_compute; reflexivity. Qed.

Example iso_150 : found
  [(U 9, B 9, B 9); (B 1, B 7, B 2); (B 4, U 5, U 5); (U 1, B 3, B 3); (B 6, U 8, U 0); (B 6, U 5, B 4);
   (U 6, B 4, B 3); (U 5, B 3, B 6); (B 6, U 9, U 9); (U 1, B 5, B 1); (U 4, U 4, B 9); (B 8, B 4, U 6);
   (B 6, B 9, U 8); (U 5, B 6, B 5); (B 5, U 5, U 3); (U 2, U 7, U 0); (U 3, U 6, B 3); (U 9, B 1, U 3);
   (U 8, B 4, U 7); (B 4, B 7, B 8)]
  [(U 9, T 9, T 9); (T 1, T 7, T 2); (T 4, U 5, U 5); (U 1, T 3, T 3); (T 6, U 8, U 0); (T 6, U 5, T 4);
   (U 6, T 4, T 3); (U 5, T 3, T 6); (T 6, U 9, U 9); (U 1, T 5, T 1); (U 4, U 4, T 9); (T 8, T 4, U 6);
   (T 6, T 9, U 8); (U 5, T 6, T 5); (T 5, U 5, U 3); (U 2, U 7, U 0); (U 3, U 6, T 3); (U 9, T 1, U 3);
   (U 8, T 4, U 7); (T 4, T 7, T 8)] = true.
Proof. vm_compute; reflexivity. Qed.

