(** tests/iso.rs, tests iso_151 to iso_200, written by a script from the test's text. *)
From Coq Require Import NArith List.
Import ListNotations.
From Verif Require Import RepoTestRun.
Open Scope N_scope.

Example iso_151 : found
  [(U 3, B 1, U 8); (U 6, B 1, B 2); (U 1, U 2, U 2); (B 9, U 1, U 0); (U 6, U 4, U 4); (B 6, B 7, B 8);
   (U 0, B 7, B 2); (U 6, U 0, U 7); (B 1, U 8, B 0); (U 5, U 9, U 7); (B 0, B 5, U 4); (U 0, B 8, B 2);
   (B 5, U 8, B 6); (B 8, U 5, U 1); (U 4, U 0, U 9); (U 9, U 9, U 8); (B 9, B 8, U 7); (U 2, B 1, B 7);
   (U 5, B 9, B 6); (U 7, U 1, U 2)]
  [(U 3, T 1, U 8); (U 6, T 1, T 2); (U 1, U 2, U 2); (T 9, U 1, U 0); (U 6, U 4, U 4); (T 6, T 7, T 8);
   (U 0, T 7, T 2); (U 6, U 0, U 7); (T 1, U 8, T 0); (U 5, U 9, U 7); (T 0, T 5, U 4); (U 0, T 8, T 2);
   (T 5, U 8, T 6); (T 8, U 5, U 1); (U 4, U 0, U 9); (U 9, U 9, U 8); (T 9, T 8, U 7); (U 2, T 1, T 7);
   (U 5, T 9, T 6); (U 7, U 1, U 2)] = true.
Proof. vm_compute; reflexivity. Qed.

Example iso_152 : found
  [(B 6, B 8, B 7); (B 7, B 3, B 3); (U 3, U 4, U 3); (B 2, B 6, U 1); (B 2, U 6, B 6); (B 6, U 5, U 5);
   (B 1, B 4, B 9); (B 5, B 7, B 2); (B 2, U 0, B 7); (B 8, U 6, U 2); (B 5, B 2, U 0); (U 0, U 7, B 1);
   (U 3, B 4, B 4); (B 4, B 4, U 9); (B 7, U 4, U 9); (B 3, U 9, U 2); (B 0, B 7, U 1); (B 3, U 3, B 9);
   (B 8, B 8, U 7); (B 6, U 3, U 2)]
  [(T 6, T 8, T 7); (T 7, T 3, T 3); (U 3, U 4, U 3); (T 2, T 6, U 1); (T 2, U 6, T 6); (T 6, U 5, U 5);
   (T 1, T 4, T 9); (T 5, T 7, T 2); (T 2, U 0, T 7); (T 8, U 6, U 2); (T 5, T 2, U 0); (U 0, U 7, T 1);
   (U 3, T 4, T 4); (T 4, T 4, U 9); (T 7, U 4, U 9); (T 3, U 9, U 2); (T 0, T 7, U 1); (T 3, U 3, T 9);
   (T 8, T 8, U 7); (T 6, U 3, U 2)] = true.
Proof. vm_compute; reflexivity. Qed.

Example iso_153 : found
  [(U 4, U 6, U 6); (B 0, B 9, U 6); (B 4, B 7, B 2); (U 9, B 3, B 5); (B 3, B 9, U 7); (U 0, B 8, U 0);
   (U 0, B 5, B 0); (B 2, U 7, U 1); (B 6, B 9, B 3); (B 5, B 5, U 9); (B 1, U 7, U 4); (B 7, B 3, U 1);
   (B 9, B 6, U 9); (U 6, B 0, B 0); (U 5, B 1, B 5); (U 4, U 8, U 4); (B 9, B 0, B 8); (U 1, U 1, U 8);
   (U 4, U 4, B 6); (U 7, U 2, B 9)]
  [(U 4, U 6, U 6); (T 0, T 9, U 6); (T 4, T 7, T 2); (U 9, T 3, T 5); (T 3, T 9, U 7); (U 0, T 8, U 0);
   (U 0, T 5, T 0); (T 2, U 7, U 1); (T 6, T 9, T 3); (T 5, T 5, U 9); (T 1, U 7, U 4); (T 7, T 3, U 1);
   (T 9, T 6, U 9); (U 6, T 0, T 0); (U 5, T 1, T 5); (U 4, U 8, U 4); (T 9, T 0, T 8); (U 1, U 1, U 8);
   (U 4, U 4, T 6); (U 7, U 2, T 9)] = true.
Proof. vm_compute; reflexivity. Qed.

Example iso_154 : found
  [(U 8, B 6, B 6); (U 5, B 0, B 5); (U 4, B 4, U 8); (U 1, U 0, B 9); (B 0, B 7, U 2); (U 4, U 6, U 7);
   (B 8, U 1, B 3); (B 2, B 0, B 5); (U 9, U 6, U 4); (U 1, U 2, B 3); (B 9, B 0, B 1); (U 7, U 4, B 5);
   (U 6, B 0, B 6); (U 6, B 7, U 3); (B 0, B 3, U 8); (B 3, U 9, U 5); (B 1, B 9, U 1); (U 4, U 3, B 0);
   (B 0, U 0, B 4); (B 8, U 1, B 7)]
  [(U 8, T 6, T 6); (U 5, T 0, T 5); (U 4, T 4, U 8); (U 1, U 0, T 9); (T 0, T 7, U 2); (U 4, U 6, U 7);
   (T 8, U 1, T 3); (T 2, T 0, T 5); (U 9, U 6, U 4); (U 1, U 2, T 3); (T 9, T 0, T 1); (U 7, U 4, T 5);
   (U 6, T 0, T 6); (U 6, T 7, U 3); (T 0, T 3, U 8); (T 3, U 9, U 5); (T 1, T 9, U 1); (U 4, U 3, T 0);
   (T 0, U 0, T 4); (T 8, U 1, T 7)] = true.
Proof. vm_compute; reflexivity. Qed.

Example iso_155 : found
  [(U 4, U 2, B 9); (B 4, U 1, B 9); (U 7, U 8, B 9); (U 4, B 6, U 2); (U 7, B 3, U 1); (B 3, U 9, B 7);
   (B 1, U 5, U 8); (U 9, B 9, U 5); (U 6, B 0, U 2); (B 7, U 4, B 1); (B 7, B 0, B 4); (B 6, B 4, B 1);
   (U 1, U 5, B 8); (B 4, B 6, B 0); (B 1, B 3, B 7); (B 7, U 6, B 7); (B 6, B 8, B 7); (U 8, U 1, U 6);
   (B 8, U 1, B 3); (U 1, U 9, U 2)]
  [(U 4, U 2, T 9); (T 4, U 1, T 9); (U 7, U 8, T 9); (U 4, T 6, U 2); (U 7, T 3, U 1); (T 3, U 9, T 7);
   (T 1, U 5, U 8); (U 9, T 9, U 5); (U 6, T 0, U 2); (T 7, U 4, T 1); (T 7, T 0, T 4); (T 6, T 4, T 1);
   (U 1, U 5, T 8); (T 4, T 6, T 0); (T 1, T 3, T 7); (T 7, U 6, T 7); (T 6, T 8, T 7); (U 8, U 1, U 6);
   (T 8, U 1, T 3); (U 1, U 9, U 2)] = true.
Proof. vm_compute; reflexivity. Qed.

Example iso_156 : found
  [(U 6, U 3, U 5); (B 5, B 0, B 1); (B 0, B 8, U 5); (U 7, U 8, B 5); (B 6, U 2, U 0); (U 8, U 7, U 0);
   (U 0, B 5, B 7); (B 1, U 7, U 1); (B 7, U 2, U 8); (B 3, B 6, U 5); (B 7, U 3, B 7); (U 3, U 9, B 2);
   (B 0, B 0, U 4); (B 8, B 8, B 0); (U 0, B 9, U 3); (B 2, U 9, B 3); (U 2, B 8, B 6); (U 5, U 2, B 1);
   (B 5, B 8, U 3); (U 0, U 2, B 4)]
  [(U 6, U 3, U 5); (T 5, T 0, T 1); (T 0, T 8, U 5); (U 7, U 8, T 5); (T 6, U 2, U 0); (U 8, U 7, U 0);
   (U 0, T 5, T 7); (T 1, U 7, U 1); (T 7, U 2, U 8); (T 3, T 6, U 5); (T 7, U 3, T 7); (U 3, U 9, T 2);
   (T 0, T 0, U 4); (T 8, T 8, T 0); (U 0, T 9, U 3); (T 2, U 9, T 3); (U 2, T 8, T 6); (U 5, U 2, T 1);
   (T 5, T 8, U 3); (U 0, U 2, T 4)] = true.
Proof. vm_compute; reflexivity. Qed.

Example iso_157 : found
  [(B 9, B 1, B 7); (B 0, B 5, B 4); (U 6, U 9, U 5); (B 3, B 8, B 4); (U 6, U 1, B 2); (B 6, U 2, B 4);
   (U 7, B 7, U 2); (U 1, B 8, U 8); (B 4, U 7, U 9); (U 6, B 0, U 7); (B 3, B 8, B 7); (U 1, B 8, U 3);
   (U 4, U 4, U 6); (B 4, B 4, B 2); (B 5, U 4, U 8); (B 5, B 6, U 1); (B 8, U 9, B 1); (B 5, U 7, B 6);
   (U 2, B 6, U 0); (U 1, U 4, B 9)]
  [(T 9, T 1, T 7); (T 0, T 5, T 4); (U 6, U 9, U 5); (T 3, T 8, T 4); (U 6, U 1, T 2); (T 6, U 2, T 4);
   (U 7, T 7, U 2); (U 1, T 8, U 8); (T 4, U 7, U 9); (U 6, T 0, U 7); (T 3, T 8, T 7); (U 1, T 8, U 3);
   (U 4, U 4, U 6); (T 4, T 4, T 2); (T 5, U 4, U 8); (T 5, T 6, U 1); (T 8, U 9, T 1); (T 5, U 7, T 6);
   (U 2, T 6, U 0); (U 1, U 4, T 9)] = true.
Proof. vm_compute; reflexivity. Qed.

Example iso_158 : found
  [(U 9, U 2, B 1); (B 6, U 6, U 9); (U 9, B 5, B 1); (B 8, U 7, U 6); (B 5, U 4, U 8); (U 1, U 2, B 3);
   (U 5, B 4, B 4); (U 5, B 6, B 5); (U 6, B 9, U 5); (B 5, U 7, U 1); (U 2, U 5, B 7); (B 5, U 1, B 4);
   (B 3, B 8, U 2); (B 3, U 1, U 3); (B 1, B 4, B 6); (B 6, B 9, B 8); (B 2, U 5, B 5); (B 7, B 2, U 0);
   (U 6, B 9, B 7); (B 9, B 4, U 6)]
  [(U 9, U 2, T 1); (T 6, U 6, U 9); (U 9, T 5, T 1); (T 8, U 7, U 6); (T 5, U 4, U 8); (U 1, U 2, T 3);
   (U 5, T 4, T 4); (U 5, T 6, T 5); (U 6, T 9, U 5); (T 5, U 7, U 1); (U 2, U 5, T 7); (T 5, U 1, T 4);
   (T 3, T 8, U 2); (T 3, U 1, U 3); (T 1, T 4, T 6); (T 6, T 9, T 8); (T 2, U 5, T 5); (T 7, T 2, U 0);
   (U 6, T 9, T 7); (T 9, T 4, U 6)] = true.
Proof. vm_compute; reflexivity. Qed.

Example iso_159 : found
  [(U 1, U 5, B 6); (B 2, U 8, B 5); (B 9, U 8, U 5); (B 3, B 4, U 6); (U 2, U 1, B 9); (U 2, B 8, U 6);
   (U 1, U 6, B 0); (B 7, B 6, U 1); (U 2, U 4, B 0); (B 0, B 3, B 9); (B 1, B 5, U 1); (U 0, B 4, U 2);
   (U 2, U 8, B 8); (B 4, B 6, U 3); (U 4, B 0, U 0); (U 2, U 9, U 4); (U 9, B 9, U 7); (U 5, B 1, B 4);
   (U 9, U 9, U 5); (B 8, U 7, B 2)]
  [(U 1, U 5, T 6); (T 2, U 8, T 5); (T 9, U 8, U 5); (T 3, T 4, U 6); (U 2, U 1, T 9); (U 2, T 8, U 6);
   (U 1, U 6, T 0); (T 7, T 6, U 1); (U 2, U 4, T 0); (T 0, T 3, T 9); (T 1, T 5, U 1); (U 0, T 4, U 2);
   (U 2, U 8, T 8); (T 4, T 6, U 3); (U 4, T 0, U 0); (U 2, U 9, U 4); (U 9, T 9, U 7); (U 5, T 1, T 4);
   (U 9, U 9, U 5); (T 8, U 7, T 2)] = true.
Proof. vm_compute; reflexivity. Qed.

Example iso_160 : found
  [(B 4, B 9, B 2); (B 1, U 3, B 3); (U 6, U 6, U 2); (B 9, B 6, U 7); (U 7, U 6, B 0); (U 4, B 2, U 9);
   (U 4, B 6, U 8); (B 2, U 2, B 0); (U 6, U 4, B 6); (U 4, B 8, B 5); (B 7, B 8, B 6); (U 7, U 3, B 0);
   (U 1, B 8, B 5); (U 4, B 4, B 8); (U 4, B 9, B 1); (U 3, U 7, U 5); (B 0, B 3, B 7); (B 3, B 0, B 9);
   (B 4, B 8, B 1); (B 8, B 4, U 3)]
  [(T 4, T 9, T 2); (T 1, U 3, T 3); (U 6, U 6, U 2); (T 9, T 6, U 7); (U 7, U 6, T 0); (U 4, T 2, U 9);
   (U 4, T 6, U 8); (T 2, U 2, T 0); (U 6, U 4, T 6); (U 4, T 8, T 5); (T 7, T 8, T 6); (U 7, U 3, T 0);
   (U 1, T 8, T 5); (U 4, T 4, T 8); (U 4, T 9, T 1); (U 3, U 7, U 5); (T 0, T 3, T 7); (T 3, T 0, T 9);
   (T 4, T 8, T 1); (T 8, T 4, U 3)] = true.
Proof. vm_compute; reflexivity. Qed.

Example iso_161 : found
  [(U 1, B 7, B 3); (B 9, B 1, B 2); (B 9, U 8, U 6); (B 3, B 4, U 0); (B 4, B 6, U 3); (U 0, B 3, U 0);
   (B 3, B 1, B 6); (B 1, B 3, U 7); (U 9, U 2, U 4); (B 1, U 2, U 1); (U 7, B 1, U 4); (U 3, U 0, U 2);
   (B 4, U 8, U 8); (B 7, U 1, U 9); (B 7, B 9, U 4); (U 4, B 8, B 8); (U 5, B 4, U 4); (B 1, U 2, U 2);
   (U 3, B 7, U 2); (B 7, U 5, B 7)]
  [(U 1, T 7, T 3); (T 9, T 1, T 2); (T 9, U 8, U 6); (T 3, T 4, U 0); (T 4, T 6, U 3); (U 0, T 3, U 0);
   (T 3, T 1, T 6); (T 1, T 3, U 7); (U 9, U 2, U 4); (T 1, U 2, U 1); (U 7, T 1, U 4); (U 3, U 0, U 2);
   (T 4, U 8, U 8); (T 7, U 1, U 9); (T 7, T 9, U 4); (U 4, T 8, T 8); (U 5, T 4, U 4); (T 1, U 2, U 2);
   (U 3, T 7, U 2); (T 7, U 5, T 7)] = true.
Proof. vm_compute; reflexivity. Qed.

Example iso_162 : found
  [(B 4, U 0, U 0); (U 4, U 4, U 8); (U 3, B 9, B 1); (U 8, U 4, U 6); (U 9, B 9, U 9); (B 1, U 6, U 7);
   (B 4, B 5, U 4); (B 2, B 7, B 0); (B 0, B 6, U 6); (B 1, U 7, U 6); (U 4, B 4, U 2); (B 5, B 9, B 5);
   (B 6, U 8, B 6); (B 7, B 6, U 5); (U 0, U 5, U 1); (U 0, U 6, B 5); (B 4, B 3, B 6); (B 5, B 2, U 3);
   (B 0, U 5, B 1); (U 5, B 3, B 7)]
  [(T 4, U 0, U 0); (U 4, U 4, U 8); (U 3, T 9, T 1); (U 8, U 4, U 6); (U 9, T 9, U 9); (T 1, U 6, U 7);
   (T 4, T 5, U 4); (T 2, T 7, T 0); (T 0, T 6, U 6); (T 1, U 7, U 6); (U 4, T 4, U 2); (T 5, T 9, T 5);
   (T 6, U 8, T 6); (T 7, T 6, U 5); (U 0, U 5, U 1); (U 0, U 6, T 5); (T 4, T 3, T 6); (T 5, T 2, U 3);
   (T 0, U 5, T 1); (U 5, T 3, T 7)] = true.
Proof. vm_compute; reflexivity. Qed.

Example iso_163 : found
  [(U 0, B 5, B 3); (U 5, U 8, U 8); (U 8, U 2, U 6); (B 6, U 2, B 1); (B 1, U 2, U 7); (U 9, B 1, U 0);
   (B 9, B 4, U 6); (U 7, U 2, U 8); (B 0, B 8, U 7); (B 1, B 9, U 9); (B 8, B 7, B 2); (B 4, U 4, U 3);
   (U 9, B 5, B 6); (U 6, U 6, U 9); (U 0, U 1, U 7); (U 9, B 1, B 4); (B 8, U 9, B 1); (B 5, U 3, B 5);
   (B 9, B 0, U 4); (U 1, U 3, B 6)]
  [(U 0, T 5, T 3); (U 5, U 8, U 8); (U 8, U 2, U 6); (T 6, U 2, T 1); (T 1, U 2, U 7); (U 9, T 1, U 0);
   (T 9, T 4, U 6); (U 7, U 2, U 8); (T 0, T 8, U 7); (T 1, T 9, U 9); (T 8, T 7, T 2); (T 4, U 4, U 3);
   (U 9, T 5, T 6); (U 6, U 6, U 9); (U 0, U 1, U 7); (U 9, T 1, T 4); (T 8, U 9, T 1); (T 5, U 3, T 5);
   (T 9, T 0, U 4); (U 1, U 3, T 6)] = true.
Proof. vm_compute; reflexivity. Qed.

Example iso_164 : found
  [(U 8, U 8, U 7); (U 6, U 6, U 2); (B 2, U 5, B 8); (B 2, U 4, B 2); (U 7, B 9, U 8); (U 4, U 4, U 8);
   (B 1, U 3, U 9); (B 9, B 6, U 4); (B 5, B 3, U 8); (U 6, B 8, U 1); (U 5, U 1, U 5); (B 1, B 7, U 3);
   (U 3, B 3, U 2); (U 8, U 4, B 0); (U 1, U 5, U 4); (U 8, U 6, U 1); (U 7, B 1, B 4); (B 5, B 9, B 4);
   (U 5, U 5, U 5); (U 9, B 5, U 2)]
  [(U 8, U 8, U 7); (U 6, U 6, U 2); (T 2, U 5, T 8); (T 2, U 4, T 2); (U 7, T 9, U 8); (U 4, U 4, U 8);
   (T 1, U 3, U 9); (T 9, T 6, U 4); (T 5, T 3, U 8); (U 6, T 8, U 1); (U 5, U 1, U 5); (T 1, T 7, U 3);
   (U 3, T 3, U 2); (U 8, U 4, T 0); (U 1, U 5, U 4); (U 8, U 6, U 1); (U 7, T 1, T 4); (T 5, T 9, T 4);
   (U 5, U 5, U 5); (U 9, T 5, U 2)] = true.
Proof. vm_compute; reflexivity. Qed.

Example iso_165 : found
  [(U 8, B 4, U 4); (B 7, U 3, B 7); (U 2, B 8, U 5); (B 1, U 9, B 2); (U 7, U 7, B 5); (B 8, U 2, B 3);
   (U 4, B 0, U 0); (U 7, U 1, U 0); (U 8, B 9, B 5); (U 3, B 5, B 5); (B 3, B 2, B 5); (B 3, B 9, U 3);
   (U 7, U 8, B 3); (B 5, B 9, B 1); (U 7, B 6, U 7); (B 6, U 4, U 7); (U 1, B 7, B 1); (B 9, B 9, U 3);
   (U 0, U 7, B 1); (B 4, B 3, U 0)]
  [(U 8, T 4, U 4); (T 7, U 3, T 7); (U 2, T 8, U 5); (T 1, U 9, T 2); (U 7, U 7, T 5); (T 8, U 2, T 3);
   (U 4, T 0, U 0); (U 7, U 1, U 0); (U 8, T 9, T 5); (U 3, T 5, T 5); (T 3, T 2, T 5); (T 3, T 9, U 3);
   (U 7, U 8, T 3); (T 5, T 9, T 1); (U 7, T 6, U 7); (T 6, U 4, U 7); (U 1, T 7, T 1); (T 9, T 9, U 3);
   (U 0, U 7, T 1); (T 4, T 3, U 0)] = true.
Proof. vm_compute; reflexivity. Qed.

Example iso_166 : found
  [(U 8, B 0, U 5); (U 4, B 5, U 1); (B 7, B 2, U 6); (B 6, B 8, U 2); (U 2, B 3, B 8); (U 8, B 0, B 0);
   (U 1, B 0, B 8); (B 7, B 7, B 6); (B 6, U 7, U 5); (U 0, U 6, B 6); (U 8, B 6, B 1); (B 3, U 8, B 0);
   (U 1, B 2, U 1); (U 4, B 7, B 2); (U 6, B 4, U 0); (U 6, U 7, B 0); (B 7, U 8, B 1); (B 5, U 3, B 5);
   (B 9, U 1, U 0); (U 4, U 1, B 0)]
  [(U 8, T 0, U 5); (U 4, T 5, U 1); (T 7, T 2, U 6); (T 6, T 8, U 2); (U 2, T 3, T 8); (U 8, T 0, T 0);
   (U 1, T 0, T 8); (T 7, T 7, T 6); (T 6, U 7, U 5); (U 0, U 6, T 6); (U 8, T 6, T 1); (T 3, U 8, T 0);
   (U 1, T 2, U 1); (U 4, T 7, T 2); (U 6, T 4, U 0); (U 6, U 7, T 0); (T 7, U 8, T 1); (T 5, U 3, T 5);
   (T 9, U 1, U 0); (U 4, U 1, T 0)] = true.
Proof. vm_compute; reflexivity. Qed.

Example iso_167 : found
  [(U 7, B 8, B 4); (U 6, B 4, B 8); (U 9, B 1, U 9); (B 7, U 4, U 8); (U 4, B 6, U 1); (U 5, U 4, U 3);
   (B 0, B 4, B 6); (B 9, U 2, U 1); (U 6, U 9, B 5); (U 6, U 5, U 7); (B 2, U 4, U 7); (U 3, B 1, B 8);
   (B 8, B 2, U 5); (B 7, B 6, B 3); (B 8, B 9, B 8); (U 5, U 2, U 4); (U 1, B 0, U 4); (U 6, U 1, U 8);
   (B 6, B 3, U 6); (U 7, B 7, U 8)]
  [(U 7, T 8, T 4); (U 6, T 4, T 8); (U 9, T 1, U 9); (T 7, U 4, U 8); (U 4, T 6, U 1); (U 5, U 4, U 3);
   (T 0, T 4, T 6); (T 9, U 2, U 1); (U 6, U 9, T 5); (U 6, U 5, U 7); (T 2, U 4, U 7); (U 3, T 1, T 8);
   (T 8, T 2, U 5); (T 7, T 6, T 3); (T 8, T 9, T 8); (U 5, U 2, U 4); (U 1, T 0, U 4); (U 6, U 1, U 8);
   (T 6, T 3, U 6); (U 7, T 7, U 8)] = true.
Proof. vm_compute; reflexivity. Qed.

Example iso_168 : found
  [(U 6, B 0, B 4); (U 5, U 8, U 3); (B 1, B 8, B 0); (B 2, U 6, B 3); (U 2, B 8, U 8); (B 6, B 3, B 3);
   (B 0, U 8, U 9); (B 5, U 2, U 6); (B 0, B 8, B 5); (U 4, U 5, U 4); (U 4, B 2, U 9); (U 3, B 2, B 7);
   (B 4, B 8, U 0); (B 1, U 0, B 7); (U 7, U 5, U 2); (U 8, U 4, B 7); (U 0, U 6, B 5); (U 3, U 4, U 6);
   (B 5, U 6, U 8); (U 3, B 8, B 0)]
  [(U 6, T 0, T 4); (U 5, U 8, U 3); (T 1, T 8, T 0); (T 2, U 6, T 3); (U 2, T 8, U 8); (T 6, T 3, T 3);
   (T 0, U 8, U 9); (T 5, U 2, U 6); (T 0, T 8, T 5); (U 4, U 5, U 4); (U 4, T 2, U 9); (U 3, T 2, T 7);
   (T 4, T 8, U 0); (T 1, U 0, T 7); (U 7, U 5, U 2); (U 8, U 4, T 7); (U 0, U 6, T 5); (U 3, U 4, U 6);
   (T 5, U 6, U 8); (U 3, T 8, T 0)] = true.
Proof. vm_compute; reflexivity. Qed.

Example iso_169 : found
  [(U 0, B 2, U 4); (B 6, U 5, U 3); (U 4, U 2, U 3); (U 1, B 8, B 4); (B 7, U 3, B 4); (B 6, U 3, B 9);
   (U 2, B 1, U 6); (U 4, B 2, B 7); (B 3, U 7, B 2); (U 7, B 9, U 8); (B 5, U 8, U 3); (U 2, U 0, B 0);
   (B 8, B 5, U 3); (B 9, B 6, B 6); (B 8, B 3, B 3); (B 9, U 8, U 3); (B 6, U 6, U 5); (B 5, U 0, U 7);
   (B 7, U 2, B 1); (B 5, U 0, B 0)]
  [(U 0, T 2, U 4); (T 6, U 5, U 3); (U 4, U 2, U 3); (U 1, T 8, T 4); (T 7, U 3, T 4); (T 6, U 3, T 9);
   (U 2, T 1, U 6); (U 4, T 2, T 7); (T 3, U 7, T 2); (U 7, T 9, U 8); (T 5, U 8, U 3); (U 2, U 0, T 0);
   (T 8, T 5, U 3); (T 9, T 6, T 6); (T 8, T 3, T 3); (T 9, U 8, U 3); (T 6, U 6, U 5); (T 5, U 0, U 7);
   (T 7, U 2, T 1); (T 5, U 0, T 0)] = true.
Proof. vm_compute; reflexivity. Qed.

Example iso_170 : found
  [(U 7, B 8, U 3); (B 9, U 1, U 8); (U 2, B 0, B 1); (U 3, B 4, U 2); (B 0, B 9, U 9); (B 5, B 5, U 7);
   (U 6, U 5, U 9); (U 7, B 9, U 0); (U 1, U 7, B 5); (B 2, B 7, U 3); (U 2, B 0, U 2); (U 6, B 1, B 4);
   (B 4, U 5, B 1); (B 1, B 7, U 5); (B 7, B 6, B 0); (B 7, B 4, U 5); (U 9, U 6, U 4); (B 4, B 6, B 7);
   (U 0, U 9, B 8); (B 7, U 8, B 1)]
  [(U 7, T 8, U 3); (T 9, U 1, U 8); (U 2, T 0, T 1); (U 3, T 4, U 2); (T 0, T 9, U 9); (T 5, T 5, U 7);
   (U 6, U 5, U 9); (U 7, T 9, U 0); (U 1, U 7, T 5); (T 2, T 7, U 3); (U 2, T 0, U 2); (U 6, T 1, T 4);
   (T 4, U 5, T 1); (T 1, T 7, U 5); (T 7, T 6, T 0); (T 7, T 4, U 5); (U 9, U 6, U 4); (T 4, T 6, T 7);
   (U 0, U 9, T 8); (T 7, U 8, T 1)] = true.
Proof. vm_compute; reflexivity. Qed.

Example iso_171 : found
  [(U 7, U 1, U 0); (B 2, B 8, B 1); (U 0, B 3, B 6); (B 7, B 6, B 7); (U 4, B 4, B 8); (U 0, B 0, B 8);
   (B 5, U 4, B 6); (B 7, U 3, U 9); (B 0, U 4, U 3); (U 3, B 6, B 4); (U 4, U 0, B 3); (U 2, U 2, B 8);
   (U 0, U 5, B 9); (U 0, B 2, B 3); (B 1, B 6, U 9); (B 4, B 3, U 1); (U 0, B 7, B 1); (U 4, U 1, U 0);
   (U 1, B 4, B 3); (U 6, B 4, B 8)]
  [(U 7, U 1, U 0); (T 2, T 8, T 1); (U 0, T 3, T 6); (T 7, T 6, T 7); (U 4, T 4, T 8); (U 0, T 0, T 8);
   (T 5, U 4, T 6); (T 7, U 3, U 9); (T 0, U 4, U 3); (U 3, T 6, T 4); (U 4, U 0, T 3); (U 2, U 2, T 8);
   (U 0, U 5, T 9); (U 0, T 2, T 3); (T 1, T 6, U 9); (T 4, T 3, U 1); (U 0, T 7, T 1); (U 4, U 1, U 0);
   (U 1, T 4, T 3); (U 6, T 4, T 8)] = true.
Proof. vm_compute; reflexivity. Qed.

Example iso_172 : found
  [(U 3, U 7, B 5); (B 5, U 8, B 2); (U 0, U 5, U 5); (B 3, U 0, U 3); (B 5, U 2, B 1); (B 3, U 6, B 7);
   (B 3, B 3, U 6); (B 5, U 3, U 7); (U 4, U 0, B 4); (U 3, B 0, B 0); (U 8, U 0, B 8); (U 0, U 5, U 1);
   (U 6, U 5, B 5); (U 8, B 0, U 5); (B 1, B 8, B 7); (U 9, U 5, U 6); (B 9, B 2, U 6); (U 7, B 6, B 7);
   (U 9, B 0, B 2); (U 5, B 8, U 2)]
  [(U 3, U 7, T 5); (T 5, U 8, T 2); (U 0, U 5, U 5); (T 3, U 0, U 3); (T 5, U 2, T 1); (T 3, U 6, T 7);
   (T 3, T 3, U 6); (T 5, U 3, U 7); (U 4, U 0, T 4); (U 3, T 0, T 0); (U 8, U 0, T 8); (U 0, U 5, U 1);
   (U 6, U 5, T 5); (U 8, T 0, U 5); (T 1, T 8, T 7); (U 9, U 5, U 6); (T 9, T 2, U 6); (U 7, T 6, T 7);
   (U 9, T 0, T 2); (U 5, T 8, U 2)] = true.
Proof. vm_compute; reflexivity. Qed.

Example iso_173 : found
  [(B 7, U 0, U 7); (U 9, B 9, U 6); (U 9, B 9, U 8); (U 3, U 1, B 2); (B 2, B 7, B 0); (U 1, B 3, U 5);
   (B 7, B 4, B 2); (B 1, B 7, B 6); (U 0, U 7, U 3); (U 2, U 4, U 0); (U 3, B 9, B 6); (B 8, U 1, B 1);
   (B 6, U 1, U 3); (U 2, U 8, B 7); (U 8, B 1, U 6); (U 4, B 8, U 7); (B 9, B 5, U 8); (U 5, U 0, U 1);
   (B 3, U 6, U 1); (B 9, U 5, U 9)]
  [(T 7, U 0, U 7); (U 9, T 9, U 6); (U 9, T 9, U 8); (U 3, U 1, T 2); (T 2, T 7, T 0); (U 1, T 3, U 5);
   (T 7, T 4, T 2); (T 1, T 7, T 6); (U 0, U 7, U 3); (U 2, U 4, U 0); (U 3, T 9, T 6); (T 8, U 1, T 1);
   (T 6, U 1, U 3); (U 2, U 8, T 7); (U 8, T 1, U 6); (U 4, T 8, U 7); (T 9, T 5, U 8); (U 5, U 0, U 1);
   (T 3, U 6, U 1); (T 9, U 5, U 9)] = true.
Proof. vm_compute; reflexivity. Qed.

Example iso_174 : found
  [(U 5, U 1, U 8); (U 2, B 9, B 2); (U 3, B 7, B 6); (U 2, U 2, B 6); (U 4, B 0, B 9); (U 4, U 3, B 4);
   (U 5, U 6, B 8); (B 8, U 7, B 2); (B 9, U 4, B 9); (U 5, U 9, U 8); (U 7, B 0, B 6); (B 9, U 8, B 1);
   (B 6, U 2, U 2); (U 8, U 5, U 0); (B 1, B 0, B 4); (B 5, B 6, U 5); (U 5, U 7, U 6); (U 0, B 6, B 9);
   (U 0, B 0, U 4); (U 2, U 2, B 0)]
  [(U 5, U 1, U 8); (U 2, T 9, T 2); (U 3, T 7, T 6); (U 2, U 2, T 6); (U 4, T 0, T 9); (U 4, U 3, T 4);
   (U 5, U 6, T 8); (T 8, U 7, T 2); (T 9, U 4, T 9); (U 5, U 9, U 8); (U 7, T 0, T 6); (T 9, U 8, T 1);
   (T 6, U 2, U 2); (U 8, U 5, U 0); (T 1, T 0, T 4); (T 5, T 6, U 5); (U 5, U 7, U 6); (U 0, T 6, T 9);
   (U 0, T 0, U 4); (U 2, U 2, T 0)] = true.
Proof. vm_compute; reflexivity. Qed.

Example iso_175 : found
  [(U 4, B 8, U 9); (U 3, B 1, B 2); (B 0, U 7, U 2); (B 7, U 6, U 9); (B 7, B 0, U 4); (B 5, U 1, B 4);
   (U 7, U 1, U 6); (B 0, B 2, U 0); (B 2, B 2, B 1); (U 0, B 9, B 1); (B 5, B 7, B 3); (U 3, B 8, B 6);
   (U 4, B 0, U 7); (B 6, B 5, B 5); (U 1, U 5, B 6); (U 8, U 5, U 8); (B 0, B 3, B 6); (B 4, U 1, U 8);
   (U 3, U 8, B 7); (U 3, U 7, B 5)]
  [(U 4, T 8, U 9); (U 3, T 1, T 2); (T 0, U 7, U 2); (T 7, U 6, U 9); (T 7, T 0, U 4); (T 5, U 1, T 4);
   (U 7, U 1, U 6); (T 0, T 2, U 0); (T 2, T 2, T 1); (U 0, T 9, T 1); (T 5, T 7, T 3); (U 3, T 8, T 6);
   (U 4, T 0, U 7); (T 6, T 5, T 5); (U 1, U 5, T 6); (U 8, U 5, U 8); (T 0, T 3, T 6); (T 4, U 1, U 8);
   (U 3, U 8, T 7); (U 3, U 7, T 5)] = true.
Proof. vm_compute; reflexivity. Qed.

Example iso_176 : found
  [(B 9, B 4, U 7); (U 3, B 9, U 4); (U 4, B 2, U 4); (U 4, U 4, U 2); (B 1, U 0, B 7); (U 2, U 8, B 1);
   (B 8, U 1, B 4); (B 5, U 2, U 5); (U 2, U 4, U 5); (B 1, U 8, B 8); (U 7, B 1, B 0); (U 9, B 2, B 6);
   (B 6, B 3, U 6); (U 6, B 1, U 4); (B 5, B 7, U 2); (U 5, B 1, U 1); (U 0, B 4, U 2); (B 9, U 0, B 2);
   (U 7, U 9, U 0); (U 2, U 9, U 5)]
  [(T 9, T 4, U 7); (U 3, T 9, U 4); (U 4, T 2, U 4); (U 4, U 4, U 2); (T 1, U 0, T 7); (U 2, U 8, T 1);
   (T 8, U 1, T 4); (T 5, U 2, U 5); (U 2, U 4, U 5); (T 1, U 8, T 8); (U 7, T 1, T 0); (U 9, T 2, T 6);
   (T 6, T 3, U 6); (U 6, T 1, U 4); (T 5, T 7, U 2); (U 5, T 1, U 1); (U 0, T 4, U 2); (T 9, U 0, T 2);
   (U 7, U 9, U 0); (U 2, U 9, U 5)] = true.
Proof. vm_compute; reflexivity. Qed.

Example iso_177 : found
  [(B 1, B 1, B 9); (U 6, U 2, U 8); (B 8, B 5, U 5); (U 7, U 5, U 3); (B 3, B 3, B 7); (B 6, U 1, B 8);
   (U 2, U 3, B 3); (U 0, B 3, B 8); (B 5, B 9, U 8); (B 3, B 6, B 6); (U 3, U 2, U 2); (U 4, U 4, B 8);
   (B 1, B 4, U 8); (U 8, B 7, U 8); (U 3, B 7, B 5); (B 7, U 5, B 3); (U 9, U 8, U 0); (U 6, B 3, B 2);
   (B 5, B 3, U 7); (B 1, B 0, B 0)]
  [(T 1, T 1, T 9); (U 6, U 2, U 8); (T 8, T 5, U 5); (U 7, U 5, U 3); (T 3, T 3, T 7); (T 6, U 1, T 8);
   (U 2, U 3, T 3); (U 0, T 3, T 8); (T 5, T 9, U 8); (T 3, T 6, T 6); (U 3, U 2, U 2); (U 4, U 4, T 8);
   (T 1, T 4, U 8); (U 8, T 7, U 8); (U 3, T 7, T 5); (T 7, U 5, T 3); (U 9, U 8, U 0); (U 6, T 3, T 2);
   (T 5, T 3, U 7); (T 1, T 0, T 0)] = true.
Proof. vm_compute; reflexivity. Qed.

Example iso_178 : found
  [(U 9, U 8, B 1); (U 9, B 6, B 7); (B 9, U 9, B 3); (U 8, U 7, B 6); (B 7, U 6, U 9); (B 0, U 7, U 7);
   (B 9, U 1, B 5); (B 9, U 3, B 7); (B 2, B 3, B 6); (U 0, B 4, B 2); (U 0, U 4, B 0); (U 3, U 7, U 3);
   (U 7, U 2, U 3); (B 4, U 6, U 2); (B 0, U 1, U 1); (U 0, B 7, U 4); (B 1, U 5, B 9); (U 2, U 8, U 3);
   (U 5, B 3, B 1); (B 1, U 7, U 2)]
  [(U 9, U 8, T 1); (U 9, T 6, T 7); (T 9, U 9, T 3); (U 8, U 7, T 6); (T 7, U 6, U 9); (T 0, U 7, U 7);
   (T 9, U 1, T 5); (T 9, U 3, T 7); (T 2, T 3, T 6); (U 0, T 4, T 2); (U 0, U 4, T 0); (U 3, U 7, U 3);
   (U 7, U 2, U 3); (T 4, U 6, U 2); (T 0, U 1, U 1); (U 0, T 7, U 4); (T 1, U 5, T 9); (U 2, U 8, U 3);
   (U 5, T 3, T 1); (T 1, U 7, U 2)] = true.
Proof. vm_compute; reflexivity. Qed.

Example iso_179 : found
  [(U 4, B 2, B 7); (B 9, U 1, U 6); (U 5, B 7, U 6); (U 3, B 5, B 5); (B 0, U 7, B 0); (U 3, B 0, B 3);
   (B 9, B 6, U 5); (U 9, B 6, B 6); (U 4, U 6, B 6); (U 1, B 6, U 8); (B 9, U 6, B 7); (U 5, B 1, B 2);
   (U 8, B 3, U 0); (B 2, B 1, B 1); (U 1, U 9, B 6); (B 5, B 4, U 2); (B 9, B 0, U 2); (U 0, B 2, B 1);
   (B 7, U 4, U 3); (B 5, U 6, B 3)]
  [(U 4, T 2, T 7); (T 9, U 1, U 6); (U 5, T 7, U 6); (U 3, T 5, T 5); (T 0, U 7, T 0); (U 3, T 0, T 3);
   (T 9, T 6, U 5); (U 9, T 6, T 6); (U 4, U 6, T 6); (U 1, T 6, U 8); (T 9, U 6, T 7); (U 5, T 1, T 2);
   (U 8, T 3, U 0); (T 2, T 1, T 1); (U 1, U 9, T 6); (T 5, T 4, U 2); (T 9, T 0, U 2); (U 0, T 2, T 1);
   (T 7, U 4, U 3); (T 5, U 6, T 3)] = true.
Proof. vm_compute; reflexivity. Qed.

Example iso_180 : found
  [(B 1, U 3, B 3); (B 7, U 4, B 8); (B 0, U 2, B 8); (U 6, B 8, B 3); (B 8, B 3, U 3); (B 7, B 9, U 0);
   (B 1, B 3, U 7); (U 8, B 7, U 3); (B 7, U 1, B 3); (B 2, U 2, B 1); (B 3, B 5, U 9); (U 7, B 2, B 1);
   (U 0, B 0, U 8); (U 3, U 7, B 3); (B 2, B 6, U 0); (B 1, U 7, U 4); (B 0, B 4, U 3); (U 4, B 0, B 7);
   (B 7, U 4, U 0); (U 0, B 2, B 1)]
  [(T 1, U 3, T 3); (T 7, U 4, T 8); (T 0, U 2, T 8); (U 6, T 8, T 3); (T 8, T 3, U 3); (T 7, T 9, U 0);
   (T 1, T 3, U 7); (U 8, T 7, U 3); (T 7, U 1, T 3); (T 2, U 2, T 1); (T 3, T 5, U 9); (U 7, T 2, T 1);
   (U 0, T 0, U 8); (U 3, U 7, T 3); (T 2, T 6, U 0); (T 1, U 7, U 4); (T 0, T 4, U 3); (U 4, T 0, T 7);
   (T 7, U 4, U 0); (U 0, T 2, T 1)] = true.
Proof. vm_compute; reflexivity. Qed.

Example iso_181 : found
  [(B 44, B 31, U 17); (B 12, U 35, B 42); (B 9, U 9, U 6); (B 38, U 28, B 44); (B 46, B 26, U 9); (B 44, B 6, U 15);
   (U 10, U 48, B 39); (B 9, U 11, U 33); (U 33, B 27, B 28); (U 11, B 5, B 7); (U 23, U 29, U 8); (B 1, B 32, U 19);
   (U 13, B 11, U 2); (U 17, B 3, U 7); (U 17, U 17, U 3); (U 22, U 13, B 35); (U 14, B 45, B 4); (U 41, B 41, U 40);
   (U 7, B 36, B 35); (B 6, U 31, B 28); (U 33, U 4, B 49); (B 11, B 26, U 39); (U 40, U 10, U 44);
   (B 40, U 22, B 21); (U 5, B 14, U 49); (B 11, B 29, B 44); (B 20, U 23, B 35); (U 46, U 8, B 32);
   (U 20, U 43, U 1); (B 11, B 36, B 0); (U 24, B 12, B 24); (B 49, U 30, U 21); (U 10, B 24, B 32);
   (B 5, U 31, U 43); (B 42, U 46, B 41); (B 21, U 16, B 3); (B 38, B 32, B 8); (U 25, B 6, B 32);
   (U 24, U 47, B 13); (B 43, U 9, B 37); (U 41, B 40, B 39); (U 48, B 49, U 27); (B 18, B 20, B 24);
   (B 26, B 6, U 5); (U 25, B 23, U 29); (B 48, U 42, B 6); (U 26, U 17, U 20); (B 38, B 37, B 44);
   (B 19, B 38, B 42); (U 35, U 47, B 34); (U 35, B 19, U 48); (B 47, U 21, B 32); (U 47, B 45, B 1);
   (B 39, B 41, U 47); (B 25, B 34, U 17); (B 7, U 4, B 17); (U 41, U 17, U 36); (B 21, B 9, B 47);
   (B 32, U 6, U 14); (U 14, U 42, B 45); (U 38, U 40, B 45); (U 3, B 32, U 32); (B 12, B 12, U 13);
   (U 9, B 37, U 7); (B 6, B 7, U 27); (U 9, U 15, B 9); (B 13, U 27, B 13); (U 3, U 38, B 36); (B 16, B 34, B 3);
   (B 39, U 6, U 14); (U 0, B 12, U 39); (U 36, U 25, U 23); (B 21, U 28, U 6); (U 12, B 28, U 11);
   (U 22, U 33, B 11); (U 45, B 31, B 43); (B 34, U 39, B 5); (U 40, U 33, U 2); (B 0, U 28, B 45);
   (B 40, B 35, U 40); (U 1, U 19, U 21); (U 13, B 31, B 46); (U 39, U 19, B 43); (U 6, U 16, U 25);
   (B 35, U 4, B 20); (U 6, U 37, B 39); (B 9, U 29, B 1); (B 25, B 23, B 39); (U 19, U 18, U 40); (B 5, B 35, B 0);
   (U 3, U 39, U 24); (B 30, B 21, B 15); (U 14, B 33, U 41); (B 32, U 27, B 38); (U 43, U 24, B 34);
   (B 0, U 13, B 27); (B 11, B 49, U 13); (B 38, B 49, U 10); (B 25, B 45, B 17); (B 21, B 42, U 26)]
  [(T 44, T 31, U 17); (T 12, U 35, T 42); (T 9, U 9, U 6); (T 38, U 28, T 44); (T 46, T 26, U 9); (T 44, T 6, U 15);
   (U 10, U 48, T 39); (T 9, U 11, U 33); (U 33, T 27, T 28); (U 11, T 5, T 7); (U 23, U 29, U 8); (T 1, T 32, U 19);
   (U 13, T 11, U 2); (U 17, T 3, U 7); (U 17, U 17, U 3); (U 22, U 13, T 35); (U 14, T 45, T 4); (U 41, T 41, U 40);
   (U 7, T 36, T 35); (T 6, U 31, T 28); (U 33, U 4, T 49); (T 11, T 26, U 39); (U 40, U 10, U 44);
   (T 40, U 22, T 21); (U 5, T 14, U 49); (T 11, T 29, T 44); (T 20, U 23, T 35); (U 46, U 8, T 32);
   (U 20, U 43, U 1); (T 11, T 36, T 0); (U 24, T 12, T 24); (T 49, U 30, U 21); (U 10, T 24, T 32);
   (T 5, U 31, U 43); (T 42, U 46, T 41); (T 21, U 16, T 3); (T 38, T 32, T 8); (U 25, T 6, T 32);
   (U 24, U 47, T 13); (T 43, U 9, T 37); (U 41, T 40, T 39); (U 48, T 49, U 27); (T 18, T 20, T 24);
   (T 26, T 6, U 5); (U 25, T 23, U 29); (T 48, U 42, T 6); (U 26, U 17, U 20); (T 38, T 37, T 44);
   (T 19, T 38, T 42); (U 35, U 47, T 34); (U 35, T 19, U 48); (T 47, U 21, T 32); (U 47, T 45, T 1);
   (T 39, T 41, U 47); (T 25, T 34, U 17); (T 7, U 4, T 17); (U 41, U 17, U 36); (T 21, T 9, T 47);
   (T 32, U 6, U 14); (U 14, U 42, T 45); (U 38, U 40, T 45); (U 3, T 32, U 32); (T 12, T 12, U 13);
   (U 9, T 37, U 7); (T 6, T 7, U 27); (U 9, U 15, T 9); (T 13, U 27, T 13); (U 3, U 38, T 36); (T 16, T 34, T 3);
   (T 39, U 6, U 14); (U 0, T 12, U 39); (U 36, U 25, U 23); (T 21, U 28, U 6); (U 12, T 28, U 11);
   (U 22, U 33, T 11); (U 45, T 31, T 43); (T 34, U 39, T 5); (U 40, U 33, U 2); (T 0, U 28, T 45);
   (T 40, T 35, U 40); (U 1, U 19, U 21); (U 13, T 31, T 46); (U 39, U 19, T 43); (U 6, U 16, U 25);
   (T 35, U 4, T 20); (U 6, U 37, T 39); (T 9, U 29, T 1); (T 25, T 23, T 39); (U 19, U 18, U 40); (T 5, T 35, T 0);
   (U 3, U 39, U 24); (T 30, T 21, T 15); (U 14, T 33, U 41); (T 32, U 27, T 38); (U 43, U 24, T 34);
   (T 0, U 13, T 27); (T 11, T 49, U 13); (T 38, T 49, U 10); (T 25, T 45, T 17); (T 21, T 42, U 26)] = true.
Proof. vm_compute; reflexivity. Qed.

Example iso_182 : found
  [(U 30, U 20, B 35); (B 8, U 20, U 26); (U 14, B 41, B 11); (U 6, U 13, B 13); (B 17, U 48, U 5);
   (B 29, U 27, B 40); (B 6, B 8, U 30); (B 13, B 46, B 16); (U 29, B 12, U 45); (B 14, U 31, B 43);
   (B 14, U 15, B 8); (U 9, U 37, U 41); (U 46, U 7, U 22); (B 23, B 18, B 7); (B 11, U 26, U 43); (U 7, U 12, U 34);
   (B 33, U 1, U 26); (U 25, U 22, U 27); (U 27, B 49, U 22); (U 47, U 48, B 20); (U 39, B 0, B 9);
   (B 15, B 30, U 26); (B 39, B 18, U 15); (U 36, B 49, U 17); (U 30, U 31, B 1); (U 22, U 17, B 13);
   (B 48, B 29, B 1); (U 2, B 23, B 45); (B 5, B 25, B 15); (U 35, B 17, B 4); (U 8, U 15, B 5); (B 5, B 37, U 40);
   (B 15, B 25, B 4); (U 2, U 24, U 18); (B 3, U 33, B 1); (U 48, U 6, B 47); (U 0, U 39, U 24); (U 3, U 49, B 11);
   (B 21, B 26, U 1); (U 4, B 19, B 44); (B 42, B 26, U 20); (B 18, U 15, B 7); (B 14, U 41, B 19);
   (U 27, U 42, U 40); (B 5, B 5, U 48); (U 2, U 25, B 23); (U 46, U 43, B 33); (B 27, U 23, U 5);
   (U 46, U 44, B 28); (B 22, U 8, B 28); (B 29, B 43, U 27); (U 14, U 7, B 23); (U 40, B 30, B 12);
   (U 40, B 39, B 18); (U 32, U 46, B 38); (B 27, B 15, B 39); (B 25, B 47, U 21); (B 35, U 19, B 48);
   (U 9, B 38, U 43); (B 19, B 32, U 7); (B 29, B 6, U 41); (B 37, B 2, B 23); (B 14, U 3, B 24); (U 22, U 9, U 44);
   (B 42, B 5, U 39); (U 26, U 6, U 26); (U 20, U 9, U 34); (B 28, U 10, U 44); (B 29, B 35, B 44);
   (U 35, U 47, U 33); (U 18, U 20, U 46); (U 22, U 24, U 20); (U 40, B 38, U 18); (B 29, B 0, U 31);
   (B 46, B 16, B 12); (B 46, U 14, B 32); (U 26, U 12, B 47); (U 8, U 17, U 32); (U 26, B 16, B 47);
   (B 5, B 28, U 18); (U 37, U 34, B 38); (U 29, U 42, U 12); (B 48, B 35, U 44); (B 23, U 21, B 39);
   (U 34, U 27, U 10); (B 23, U 16, B 34); (U 3, U 42, B 3); (B 36, B 44, U 31); (U 22, B 40, B 26);
   (B 37, U 46, B 37); (B 33, B 17, B 46); (U 18, B 22, B 22); (B 42, B 49, B 42); (B 31, B 22, B 27);
   (B 12, U 22, B 28); (U 26, B 11, B 15); (B 14, B 13, U 4); (U 18, U 5, U 20); (U 10, U 48, U 2);
   (B 13, U 42, U 31)]
  [(U 30, U 20, T 35); (T 8, U 20, U 26); (U 14, T 41, T 11); (U 6, U 13, T 13); (T 17, U 48, U 5);
   (T 29, U 27, T 40); (T 6, T 8, U 30); (T 13, T 46, T 16); (U 29, T 12, U 45); (T 14, U 31, T 43);
   (T 14, U 15, T 8); (U 9, U 37, U 41); (U 46, U 7, U 22); (T 23, T 18, T 7); (T 11, U 26, U 43); (U 7, U 12, U 34);
   (T 33, U 1, U 26); (U 25, U 22, U 27); (U 27, T 49, U 22); (U 47, U 48, T 20); (U 39, T 0, T 9);
   (T 15, T 30, U 26); (T 39, T 18, U 15); (U 36, T 49, U 17); (U 30, U 31, T 1); (U 22, U 17, T 13);
   (T 48, T 29, T 1); (U 2, T 23, T 45); (T 5, T 25, T 15); (U 35, T 17, T 4); (U 8, U 15, T 5); (T 5, T 37, U 40);
   (T 15, T 25, T 4); (U 2, U 24, U 18); (T 3, U 33, T 1); (U 48, U 6, T 47); (U 0, U 39, U 24); (U 3, U 49, T 11);
   (T 21, T 26, U 1); (U 4, T 19, T 44); (T 42, T 26, U 20); (T 18, U 15, T 7); (T 14, U 41, T 19);
   (U 27, U 42, U 40); (T 5, T 5, U 48); (U 2, U 25, T 23); (U 46, U 43, T 33); (T 27, U 23, U 5);
   (U 46, U 44, T 28); (T 22, U 8, T 28); (T 29, T 43, U 27); (U 14, U 7, T 23); (U 40, T 30, T 12);
   (U 40, T 39, T 18); (U 32, U 46, T 38); (T 27, T 15, T 39); (T 25, T 47, U 21); (T 35, U 19, T 48);
   (U 9, T 38, U 43); (T 19, T 32, U 7); (T 29, T 6, U 41); (T 37, T 2, T 23); (T 14, U 3, T 24); (U 22, U 9, U 44);
   (T 42, T 5, U 39); (U 26, U 6, U 26); (U 20, U 9, U 34); (T 28, U 10, U 44); (T 29, T 35, T 44);
   (U 35, U 47, U 33); (U 18, U 20, U 46); (U 22, U 24, U 20); (U 40, T 38, U 18); (T 29, T 0, U 31);
   (T 46, T 16, T 12); (T 46, U 14, T 32); (U 26, U 12, T 47); (U 8, U 17, U 32); (U 26, T 16, T 47);
   (T 5, T 28, U 18); (U 37, U 34, T 38); (U 29, U 42, U 12); (T 48, T 35, U 44); (T 23, U 21, T 39);
   (U 34, U 27, U 10); (T 23, U 16, T 34); (U 3, U 42, T 3); (T 36, T 44, U 31); (U 22, T 40, T 26);
   (T 37, U 46, T 37); (T 33, T 17, T 46); (U 18, T 22, T 22); (T 42, T 49, T 42); (T 31, T 22, T 27);
   (T 12, U 22, T 28); (U 26, T 11, T 15); (T 14, T 13, U 4); (U 18, U 5, U 20); (U 10, U 48, U 2);
   (T 13, U 42, U 31)] = true.
Proof. vm_compute; reflexivity. Qed.

Example iso_183 : found
  [(B 24, U 4, U 39); (U 6, B 18, B 11); (B 3, U 28, U 14); (U 23, B 48, U 47); (U 42, U 17, B 24);
   (U 33, U 10, B 38); (B 2, B 33, B 40); (B 23, B 19, U 18); (B 46, U 8, U 8); (B 10, U 43, U 26);
   (U 33, U 20, U 9); (U 32, B 33, U 26); (B 29, U 20, B 40); (U 29, B 6, U 22); (B 46, U 11, B 6);
   (B 38, U 42, U 9); (U 36, U 45, B 38); (U 32, U 25, U 31); (B 13, B 36, B 39); (U 41, B 11, B 29);
   (U 42, B 37, B 19); (U 7, B 30, U 42); (U 44, U 37, U 49); (B 32, B 42, B 42); (B 22, B 34, U 9);
   (B 46, B 45, B 0); (B 40, B 26, B 39); (U 43, B 20, B 4); (U 21, B 31, U 23); (U 24, B 42, U 44);
   (U 41, B 47, U 2); (U 17, B 20, U 48); (B 15, B 18, B 29); (U 8, B 43, B 20); (B 25, U 48, B 7);
   (B 8, U 26, B 40); (B 16, U 42, B 44); (B 26, B 41, U 14); (B 21, U 42, B 46); (U 33, U 30, B 43);
   (B 14, B 4, B 41); (B 42, U 22, U 37); (B 36, B 13, U 45); (B 20, U 46, B 15); (B 19, B 48, B 25);
   (U 43, B 27, B 4); (U 42, U 19, B 3); (B 40, U 19, B 17); (U 47, U 37, B 44); (U 34, B 15, U 33);
   (B 37, U 47, B 9); (U 25, U 21, U 47); (B 33, U 34, B 24); (B 2, U 44, B 15); (B 22, B 49, U 19);
   (U 35, B 2, U 17); (B 20, U 11, B 39); (U 37, U 24, B 37); (B 9, U 42, U 26); (U 31, U 47, U 29);
   (U 34, B 34, U 40); (U 9, U 38, B 12); (B 42, U 45, U 28); (B 39, U 28, B 0); (B 4, U 19, U 13);
   (U 23, U 37, B 38); (U 47, B 19, U 44); (B 11, U 34, U 17); (B 49, B 39, U 19); (B 40, B 18, U 45);
   (B 33, B 8, U 20); (U 17, U 2, U 47); (U 9, U 35, U 33); (U 7, B 10, U 29); (U 32, U 12, U 4); (U 11, B 16, B 42);
   (B 46, B 31, U 8); (U 23, U 6, B 49); (U 8, B 30, B 38); (U 27, U 25, U 4); (U 29, U 30, U 47);
   (U 22, U 28, B 13); (U 32, B 11, U 10); (B 6, U 18, U 18); (U 36, B 14, B 14); (B 36, B 7, U 16);
   (U 5, B 10, B 26); (U 23, B 29, B 14); (B 43, U 2, B 47); (U 15, B 16, B 1); (B 7, B 1, B 44); (B 32, B 16, U 0);
   (U 7, U 33, B 20); (U 9, B 32, U 48); (U 40, U 19, U 5); (U 38, B 1, B 38); (U 1, U 12, U 24); (U 4, B 30, U 8);
   (U 41, B 20, U 41); (U 27, U 11, B 23)]
  [(T 24, U 4, U 39); (U 6, T 18, T 11); (T 3, U 28, U 14); (U 23, T 48, U 47); (U 42, U 17, T 24);
   (U 33, U 10, T 38); (T 2, T 33, T 40); (T 23, T 19, U 18); (T 46, U 8, U 8); (T 10, U 43, U 26);
   (U 33, U 20, U 9); (U 32, T 33, U 26); (T 29, U 20, T 40); (U 29, T 6, U 22); (T 46, U 11, T 6);
   (T 38, U 42, U 9); (U 36, U 45, T 38); (U 32, U 25, U 31); (T 13, T 36, T 39); (U 41, T 11, T 29);
   (U 42, T 37, T 19); (U 7, T 30, U 42); (U 44, U 37, U 49); (T 32, T 42, T 42); (T 22, T 34, U 9);
   (T 46, T 45, T 0); (T 40, T 26, T 39); (U 43, T 20, T 4); (U 21, T 31, U 23); (U 24, T 42, U 44);
   (U 41, T 47, U 2); (U 17, T 20, U 48); (T 15, T 18, T 29); (U 8, T 43, T 20); (T 25, U 48, T 7);
   (T 8, U 26, T 40); (T 16, U 42, T 44); (T 26, T 41, U 14); (T 21, U 42, T 46); (U 33, U 30, T 43);
   (T 14, T 4, T 41); (T 42, U 22, U 37); (T 36, T 13, U 45); (T 20, U 46, T 15); (T 19, T 48, T 25);
   (U 43, T 27, T 4); (U 42, U 19, T 3); (T 40, U 19, T 17); (U 47, U 37, T 44); (U 34, T 15, U 33);
   (T 37, U 47, T 9); (U 25, U 21, U 47); (T 33, U 34, T 24); (T 2, U 44, T 15); (T 22, T 49, U 19);
   (U 35, T 2, U 17); (T 20, U 11, T 39); (U 37, U 24, T 37); (T 9, U 42, U 26); (U 31, U 47, U 29);
   (U 34, T 34, U 40); (U 9, U 38, T 12); (T 42, U 45, U 28); (T 39, U 28, T 0); (T 4, U 19, U 13);
   (U 23, U 37, T 38); (U 47, T 19, U 44); (T 11, U 34, U 17); (T 49, T 39, U 19); (T 40, T 18, U 45);
   (T 33, T 8, U 20); (U 17, U 2, U 47); (U 9, U 35, U 33); (U 7, T 10, U 29); (U 32, U 12, U 4); (U 11, T 16, T 42);
   (T 46, T 31, U 8); (U 23, U 6, T 49); (U 8, T 30, T 38); (U 27, U 25, U 4); (U 29, U 30, U 47);
   (U 22, U 28, T 13); (U 32, T 11, U 10); (T 6, U 18, U 18); (U 36, T 14, T 14); (T 36, T 7, U 16);
   (U 5, T 10, T 26); (U 23, T 29, T 14); (T 43, U 2, T 47); (U 15, T 16, T 1); (T 7, T 1, T 44); (T 32, T 16, U 0);
   (U 7, U 33, T 20); (U 9, T 32, U 48); (U 40, U 19, U 5); (U 38, T 1, T 38); (U 1, U 12, U 24); (U 4, T 30, U 8);
   (U 41, T 20, U 41); (U 27, U 11, T 23)] = true.
Proof. vm_compute; reflexivity. Qed.

Example iso_184 : found
  [(B 47, U 42, U 4); (B 30, U 45, U 40); (U 15, U 42, U 47); (B 47, B 44, U 9); (U 32, B 39, U 16);
   (B 33, U 46, U 47); (B 44, B 4, U 45); (U 9, U 34, U 36); (B 23, B 41, U 45); (U 4, U 2, U 5); (B 49, B 22, U 36);
   (B 32, B 22, U 37); (U 16, U 44, B 6); (U 34, B 14, U 27); (U 35, B 32, U 43); (B 47, U 21, B 16);
   (B 34, U 28, U 2); (B 23, B 42, U 6); (U 15, U 39, U 3); (B 7, B 23, U 32); (U 37, B 46, U 21); (B 21, B 0, B 45);
   (U 42, U 36, U 11); (U 32, B 27, B 19); (B 30, B 12, U 46); (U 34, B 14, U 45); (U 22, U 31, B 48);
   (B 33, B 8, B 25); (U 11, U 21, U 13); (B 17, U 25, B 1); (B 39, B 8, U 18); (B 29, U 9, B 39); (U 0, U 14, B 29);
   (B 6, U 9, B 30); (U 36, B 38, B 26); (B 0, B 2, U 19); (U 43, B 27, B 42); (U 31, U 14, U 4); (U 6, B 1, B 46);
   (U 9, B 1, U 37); (U 46, U 35, U 44); (B 14, U 25, B 47); (U 44, U 47, B 48); (B 0, B 4, B 15);
   (B 43, U 42, U 45); (U 7, U 11, U 6); (U 3, U 38, B 4); (B 45, U 11, B 4); (U 42, B 43, B 35); (B 31, B 38, B 41);
   (U 28, B 8, B 10); (B 10, U 47, U 21); (B 23, B 30, B 26); (U 14, U 48, B 10); (U 41, U 23, U 35);
   (U 37, U 12, B 30); (U 9, U 13, U 35); (B 45, U 20, B 49); (U 26, U 8, B 32); (U 27, U 5, B 19);
   (B 15, U 6, B 13); (U 36, U 20, U 26); (B 2, U 11, B 33); (B 28, U 28, U 5); (U 33, U 7, U 42);
   (U 29, U 28, U 45); (U 25, U 49, U 33); (U 31, B 14, B 4); (B 7, U 37, B 1); (U 7, B 6, B 30); (U 2, U 1, B 33);
   (B 35, U 37, B 14); (U 21, U 40, B 3); (B 29, U 35, B 46); (B 16, B 32, U 5); (U 30, U 9, U 30);
   (U 40, U 22, U 44); (U 34, U 38, B 36); (U 3, B 12, U 49); (B 32, B 32, U 46); (U 30, U 28, U 46);
   (B 28, B 5, B 46); (B 2, U 28, U 33); (B 7, U 18, U 8); (B 18, B 13, B 21); (B 16, U 33, U 35);
   (B 25, B 17, U 38); (U 10, B 35, B 8); (B 37, U 33, B 7); (U 33, B 5, B 13); (U 2, B 29, B 6); (U 15, B 7, U 24);
   (U 26, B 37, B 42); (B 7, U 40, U 18); (U 25, B 32, B 25); (B 18, B 21, B 4); (B 16, U 26, U 7); (U 3, U 1, B 12);
   (B 46, U 38, U 35); (U 34, U 33, B 26)]
  [(T 47, U 42, U 4); (T 30, U 45, U 40); (U 15, U 42, U 47); (T 47, T 44, U 9); (U 32, T 39, U 16);
   (T 33, U 46, U 47); (T 44, T 4, U 45); (U 9, U 34, U 36); (T 23, T 41, U 45); (U 4, U 2, U 5); (T 49, T 22, U 36);
   (T 32, T 22, U 37); (U 16, U 44, T 6); (U 34, T 14, U 27); (U 35, T 32, U 43); (T 47, U 21, T 16);
   (T 34, U 28, U 2); (T 23, T 42, U 6); (U 15, U 39, U 3); (T 7, T 23, U 32); (U 37, T 46, U 21); (T 21, T 0, T 45);
   (U 42, U 36, U 11); (U 32, T 27, T 19); (T 30, T 12, U 46); (U 34, T 14, U 45); (U 22, U 31, T 48);
   (T 33, T 8, T 25); (U 11, U 21, U 13); (T 17, U 25, T 1); (T 39, T 8, U 18); (T 29, U 9, T 39); (U 0, U 14, T 29);
   (T 6, U 9, T 30); (U 36, T 38, T 26); (T 0, T 2, U 19); (U 43, T 27, T 42); (U 31, U 14, U 4); (U 6, T 1, T 46);
   (U 9, T 1, U 37); (U 46, U 35, U 44); (T 14, U 25, T 47); (U 44, U 47, T 48); (T 0, T 4, T 15);
   (T 43, U 42, U 45); (U 7, U 11, U 6); (U 3, U 38, T 4); (T 45, U 11, T 4); (U 42, T 43, T 35); (T 31, T 38, T 41);
   (U 28, T 8, T 10); (T 10, U 47, U 21); (T 23, T 30, T 26); (U 14, U 48, T 10); (U 41, U 23, U 35);
   (U 37, U 12, T 30); (U 9, U 13, U 35); (T 45, U 20, T 49); (U 26, U 8, T 32); (U 27, U 5, T 19);
   (T 15, U 6, T 13); (U 36, U 20, U 26); (T 2, U 11, T 33); (T 28, U 28, U 5); (U 33, U 7, U 42);
   (U 29, U 28, U 45); (U 25, U 49, U 33); (U 31, T 14, T 4); (T 7, U 37, T 1); (U 7, T 6, T 30); (U 2, U 1, T 33);
   (T 35, U 37, T 14); (U 21, U 40, T 3); (T 29, U 35, T 46); (T 16, T 32, U 5); (U 30, U 9, U 30);
   (U 40, U 22, U 44); (U 34, U 38, T 36); (U 3, T 12, U 49); (T 32, T 32, U 46); (U 30, U 28, U 46);
   (T 28, T 5, T 46); (T 2, U 28, U 33); (T 7, U 18, U 8); (T 18, T 13, T 21); (T 16, U 33, U 35);
   (T 25, T 17, U 38); (U 10, T 35, T 8); (T 37, U 33, T 7); (U 33, T 5, T 13); (U 2, T 29, T 6); (U 15, T 7, U 24);
   (U 26, T 37, T 42); (T 7, U 40, U 18); (U 25, T 32, T 25); (T 18, T 21, T 4); (T 16, U 26, U 7); (U 3, U 1, T 12);
   (T 46, U 38, U 35); (U 34, U 33, T 26)] = true.
Proof. vm_compute; reflexivity. Qed.

Example iso_185 : found
  [(B 38, B 44, U 18); (B 17, U 12, U 3); (U 27, B 22, U 21); (U 48, U 29, B 48); (U 43, B 31, B 17);
   (B 29, U 48, B 6); (U 14, U 5, U 45); (U 22, B 42, B 48); (U 43, U 15, B 18); (B 39, B 29, U 33);
   (B 3, B 26, U 5); (B 11, U 40, U 11); (U 38, U 5, U 0); (U 44, U 40, U 7); (B 11, U 21, B 38); (B 17, U 4, B 32);
   (B 21, U 47, U 0); (U 6, B 0, U 18); (U 35, B 19, B 1); (B 29, U 12, U 33); (B 9, U 35, U 29); (B 31, B 48, B 2);
   (B 22, B 37, U 46); (U 8, B 0, U 22); (U 30, B 18, B 44); (B 44, B 41, B 35); (U 14, U 11, U 3); (U 0, U 1, B 48);
   (U 29, B 21, U 36); (B 0, U 39, B 14); (U 21, B 6, U 4); (U 25, U 47, B 22); (B 41, U 31, B 25);
   (B 11, B 44, U 16); (U 17, U 35, U 2); (U 32, U 17, B 47); (B 3, U 42, U 33); (U 33, B 14, B 16);
   (U 12, U 26, U 13); (U 4, U 0, U 32); (U 32, U 15, U 22); (U 15, B 1, B 22); (U 8, B 0, B 32); (B 24, B 37, U 45);
   (U 41, U 20, U 7); (B 2, B 37, B 38); (B 21, B 11, B 36); (U 38, U 15, B 44); (U 30, B 14, B 0);
   (U 16, U 44, B 17); (B 33, B 43, U 37); (B 41, U 42, U 39); (B 39, U 4, U 26); (U 34, U 42, B 41);
   (B 20, U 3, U 38); (U 34, U 45, B 1); (B 4, U 2, B 29); (B 45, B 30, B 29); (B 18, B 23, B 41);
   (B 24, U 30, B 25); (B 27, U 23, U 37); (U 45, U 16, U 30); (U 38, U 23, U 4); (B 36, U 37, B 29);
   (U 1, B 23, U 36); (U 46, B 25, B 7); (U 14, B 33, U 3); (B 27, U 23, B 12); (U 11, B 49, B 11);
   (B 35, B 46, B 23); (B 19, U 8, B 18); (U 43, U 21, B 30); (B 22, U 14, B 18); (B 49, U 37, B 22);
   (U 17, B 18, U 26); (B 31, U 45, B 31); (B 20, B 5, B 27); (B 44, U 15, U 17); (U 13, B 6, U 47);
   (U 32, U 23, B 11); (U 20, U 35, B 19); (U 16, U 24, B 43); (U 35, B 28, U 37); (U 24, B 47, B 27);
   (B 7, B 40, U 0); (U 46, U 3, B 20); (B 27, B 6, U 7); (U 3, B 33, U 31); (B 1, B 8, U 27); (B 16, U 49, U 27);
   (B 23, U 35, U 11); (U 7, B 46, B 12); (B 38, U 3, U 33); (B 37, B 13, B 0); (B 24, U 9, B 40); (U 47, B 29, U 2);
   (B 24, U 42, B 42); (U 3, B 3, B 13); (B 40, B 17, U 12); (U 42, B 11, U 3)]
  [(T 38, T 44, U 18); (T 17, U 12, U 3); (U 27, T 22, U 21); (U 48, U 29, T 48); (U 43, T 31, T 17);
   (T 29, U 48, T 6); (U 14, U 5, U 45); (U 22, T 42, T 48); (U 43, U 15, T 18); (T 39, T 29, U 33);
   (T 3, T 26, U 5); (T 11, U 40, U 11); (U 38, U 5, U 0); (U 44, U 40, U 7); (T 11, U 21, T 38); (T 17, U 4, T 32);
   (T 21, U 47, U 0); (U 6, T 0, U 18); (U 35, T 19, T 1); (T 29, U 12, U 33); (T 9, U 35, U 29); (T 31, T 48, T 2);
   (T 22, T 37, U 46); (U 8, T 0, U 22); (U 30, T 18, T 44); (T 44, T 41, T 35); (U 14, U 11, U 3); (U 0, U 1, T 48);
   (U 29, T 21, U 36); (T 0, U 39, T 14); (U 21, T 6, U 4); (U 25, U 47, T 22); (T 41, U 31, T 25);
   (T 11, T 44, U 16); (U 17, U 35, U 2); (U 32, U 17, T 47); (T 3, U 42, U 33); (U 33, T 14, T 16);
   (U 12, U 26, U 13); (U 4, U 0, U 32); (U 32, U 15, U 22); (U 15, T 1, T 22); (U 8, T 0, T 32); (T 24, T 37, U 45);
   (U 41, U 20, U 7); (T 2, T 37, T 38); (T 21, T 11, T 36); (U 38, U 15, T 44); (U 30, T 14, T 0);
   (U 16, U 44, T 17); (T 33, T 43, U 37); (T 41, U 42, U 39); (T 39, U 4, U 26); (U 34, U 42, T 41);
   (T 20, U 3, U 38); (U 34, U 45, T 1); (T 4, U 2, T 29); (T 45, T 30, T 29); (T 18, T 23, T 41);
   (T 24, U 30, T 25); (T 27, U 23, U 37); (U 45, U 16, U 30); (U 38, U 23, U 4); (T 36, U 37, T 29);
   (U 1, T 23, U 36); (U 46, T 25, T 7); (U 14, T 33, U 3); (T 27, U 23, T 12); (U 11, T 49, T 11);
   (T 35, T 46, T 23); (T 19, U 8, T 18); (U 43, U 21, T 30); (T 22, U 14, T 18); (T 49, U 37, T 22);
   (U 17, T 18, U 26); (T 31, U 45, T 31); (T 20, T 5, T 27); (T 44, U 15, U 17); (U 13, T 6, U 47);
   (U 32, U 23, T 11); (U 20, U 35, T 19); (U 16, U 24, T 43); (U 35, T 28, U 37); (U 24, T 47, T 27);
   (T 7, T 40, U 0); (U 46, U 3, T 20); (T 27, T 6, U 7); (U 3, T 33, U 31); (T 1, T 8, U 27); (T 16, U 49, U 27);
   (T 23, U 35, U 11); (U 7, T 46, T 12); (T 38, U 3, U 33); (T 37, T 13, T 0); (T 24, U 9, T 40); (U 47, T 29, U 2);
   (T 24, U 42, T 42); (U 3, T 3, T 13); (T 40, T 17, U 12); (U 42, T 11, U 3)] = true.
Proof. vm_compute; reflexivity. Qed.

Example iso_186 : found
  [(B 11, B 47, U 48); (B 6, U 41, B 34); (U 39, B 48, U 20); (B 34, B 32, B 24); (B 49, B 29, U 35);
   (B 46, B 18, U 13); (U 24, B 26, B 31); (U 33, U 42, B 49); (B 1, U 15, B 27); (U 33, U 6, B 33);
   (U 20, B 2, U 35); (B 17, U 5, B 16); (B 30, B 9, B 40); (B 29, B 31, U 6); (B 37, B 4, U 41); (B 14, B 31, U 8);
   (U 0, U 5, B 27); (U 24, B 44, B 11); (U 38, U 21, B 8); (B 8, U 0, B 36); (B 13, B 7, U 23); (U 17, U 24, B 22);
   (B 20, B 7, B 26); (B 19, U 25, B 26); (B 39, U 26, U 37); (B 31, U 17, B 12); (U 30, U 35, B 9);
   (B 44, U 0, U 29); (B 4, B 46, B 35); (U 36, B 26, B 43); (U 18, B 0, B 14); (B 38, U 9, B 14); (B 5, U 35, U 23);
   (B 35, B 0, U 34); (U 25, B 36, U 16); (B 34, U 16, U 18); (U 31, B 44, B 22); (B 24, B 31, U 24);
   (U 31, U 13, U 25); (U 10, U 6, B 22); (B 28, U 17, B 32); (U 8, B 27, B 17); (U 0, B 39, B 34);
   (U 21, U 35, U 23); (U 12, B 22, U 27); (U 17, B 37, U 35); (U 3, U 3, B 21); (B 21, U 42, U 24);
   (U 37, U 8, U 31); (U 11, U 19, U 24); (B 31, B 35, B 41); (U 17, B 8, U 33); (B 3, B 43, B 13);
   (B 42, U 35, U 11); (B 13, B 11, B 35); (U 0, U 46, U 37); (U 47, B 21, B 33); (B 43, B 49, U 16);
   (B 38, B 46, B 40); (U 47, U 46, B 18); (U 39, B 7, B 44); (B 10, B 34, B 28); (B 21, U 3, U 18);
   (B 18, B 24, B 46); (U 43, U 33, U 10); (B 15, U 29, U 30); (B 17, U 25, B 24); (B 38, U 6, B 37);
   (U 47, U 32, U 8); (B 8, B 16, U 15); (B 10, U 21, B 26); (B 18, B 18, B 16); (B 18, B 13, U 25);
   (U 46, U 1, U 12); (B 33, B 13, U 44); (U 43, B 43, B 4); (B 25, U 10, B 37); (B 15, U 16, B 15);
   (U 36, U 28, B 25); (B 15, U 46, B 28); (B 27, U 18, B 20); (B 6, B 14, U 45); (B 5, U 45, B 45);
   (B 37, U 19, B 36); (U 11, U 2, B 37); (B 24, U 10, B 48); (B 48, B 2, B 28); (U 3, B 24, B 8); (B 6, B 35, B 20);
   (U 15, B 19, U 9); (U 2, B 43, U 33); (U 41, B 18, U 1); (U 26, U 37, U 7); (U 30, B 31, B 37); (U 37, B 10, B 0);
   (U 9, U 45, U 46); (B 1, U 1, B 26); (U 17, U 11, U 9); (U 14, B 3, B 46); (U 27, U 40, U 8)]
  [(T 11, T 47, U 48); (T 6, U 41, T 34); (U 39, T 48, U 20); (T 34, T 32, T 24); (T 49, T 29, U 35);
   (T 46, T 18, U 13); (U 24, T 26, T 31); (U 33, U 42, T 49); (T 1, U 15, T 27); (U 33, U 6, T 33);
   (U 20, T 2, U 35); (T 17, U 5, T 16); (T 30, T 9, T 40); (T 29, T 31, U 6); (T 37, T 4, U 41); (T 14, T 31, U 8);
   (U 0, U 5, T 27); (U 24, T 44, T 11); (U 38, U 21, T 8); (T 8, U 0, T 36); (T 13, T 7, U 23); (U 17, U 24, T 22);
   (T 20, T 7, T 26); (T 19, U 25, T 26); (T 39, U 26, U 37); (T 31, U 17, T 12); (U 30, U 35, T 9);
   (T 44, U 0, U 29); (T 4, T 46, T 35); (U 36, T 26, T 43); (U 18, T 0, T 14); (T 38, U 9, T 14); (T 5, U 35, U 23);
   (T 35, T 0, U 34); (U 25, T 36, U 16); (T 34, U 16, U 18); (U 31, T 44, T 22); (T 24, T 31, U 24);
   (U 31, U 13, U 25); (U 10, U 6, T 22); (T 28, U 17, T 32); (U 8, T 27, T 17); (U 0, T 39, T 34);
   (U 21, U 35, U 23); (U 12, T 22, U 27); (U 17, T 37, U 35); (U 3, U 3, T 21); (T 21, U 42, U 24);
   (U 37, U 8, U 31); (U 11, U 19, U 24); (T 31, T 35, T 41); (U 17, T 8, U 33); (T 3, T 43, T 13);
   (T 42, U 35, U 11); (T 13, T 11, T 35); (U 0, U 46, U 37); (U 47, T 21, T 33); (T 43, T 49, U 16);
   (T 38, T 46, T 40); (U 47, U 46, T 18); (U 39, T 7, T 44); (T 10, T 34, T 28); (T 21, U 3, U 18);
   (T 18, T 24, T 46); (U 43, U 33, U 10); (T 15, U 29, U 30); (T 17, U 25, T 24); (T 38, U 6, T 37);
   (U 47, U 32, U 8); (T 8, T 16, U 15); (T 10, U 21, T 26); (T 18, T 18, T 16); (T 18, T 13, U 25);
   (U 46, U 1, U 12); (T 33, T 13, U 44); (U 43, T 43, T 4); (T 25, U 10, T 37); (T 15, U 16, T 15);
   (U 36, U 28, T 25); (T 15, U 46, T 28); (T 27, U 18, T 20); (T 6, T 14, U 45); (T 5, U 45, T 45);
   (T 37, U 19, T 36); (U 11, U 2, T 37); (T 24, U 10, T 48); (T 48, T 2, T 28); (U 3, T 24, T 8); (T 6, T 35, T 20);
   (U 15, T 19, U 9); (U 2, T 43, U 33); (U 41, T 18, U 1); (U 26, U 37, U 7); (U 30, T 31, T 37); (U 37, T 10, T 0);
   (U 9, U 45, U 46); (T 1, U 1, T 26); (U 17, U 11, U 9); (U 14, T 3, T 46); (U 27, U 40, U 8)] = true.
Proof. vm_compute; reflexivity. Qed.

Example iso_187 : found
  [(B 45, B 3, U 25); (B 46, B 1, B 14); (B 18, B 44, B 0); (U 22, U 47, U 31); (B 7, U 32, U 32); (U 21, U 5, B 7);
   (U 36, B 33, U 7); (U 13, B 20, U 18); (U 25, B 5, B 23); (B 6, B 30, B 14); (U 39, B 27, B 44);
   (B 16, B 37, B 42); (U 1, B 5, U 41); (U 33, B 20, U 18); (B 23, U 26, B 49); (B 43, U 21, U 43);
   (B 7, U 34, U 45); (B 34, U 4, B 13); (U 10, B 4, B 9); (U 33, B 38, B 26); (B 49, U 33, B 13); (U 29, U 6, B 3);
   (U 21, U 6, B 47); (B 7, U 6, B 28); (U 4, U 34, B 6); (U 40, B 24, B 16); (B 39, U 4, U 12); (B 0, U 0, U 24);
   (B 24, U 1, B 11); (B 4, U 24, U 24); (U 2, U 48, B 23); (U 42, U 20, B 45); (B 25, U 49, B 14);
   (U 15, U 40, U 31); (B 39, B 1, U 20); (B 20, U 4, U 17); (B 28, B 16, B 16); (B 49, U 19, B 33);
   (B 18, U 13, B 45); (B 3, U 38, U 33); (B 22, B 12, B 9); (U 46, U 37, U 33); (B 40, U 28, U 1);
   (U 21, B 46, U 26); (U 37, U 29, B 35); (U 28, B 2, U 19); (B 26, B 39, B 0); (U 0, U 2, U 34); (U 19, U 9, B 9);
   (U 29, B 14, U 21); (B 47, B 44, B 45); (B 45, U 6, U 38); (B 10, B 39, U 22); (B 23, B 44, B 0);
   (B 46, B 42, U 19); (B 15, B 45, U 29); (B 22, B 13, U 31); (U 30, B 49, U 22); (U 48, U 46, B 23);
   (U 48, U 34, B 31); (U 37, U 35, B 4); (U 8, U 39, U 41); (U 0, U 23, B 7); (U 26, U 9, U 35); (B 40, B 39, U 35);
   (B 13, B 37, U 19); (U 5, B 2, B 24); (U 4, B 40, U 24); (U 31, B 6, U 20); (B 41, U 0, U 45); (U 16, B 43, B 1);
   (U 46, U 17, U 23); (U 18, U 39, U 5); (U 15, U 2, U 41); (U 34, B 22, U 20); (U 37, B 12, U 36);
   (B 24, B 11, U 35); (B 30, B 42, B 27); (B 5, U 40, B 19); (U 0, B 5, U 23); (U 44, U 25, U 5); (B 0, U 24, B 11);
   (U 5, B 6, B 20); (B 35, U 28, U 43); (U 36, B 42, U 41); (U 19, U 40, U 38); (B 31, U 12, B 13);
   (B 12, U 6, B 5); (B 29, U 30, U 20); (B 11, U 7, B 10); (U 42, B 42, B 6); (U 39, U 12, B 36); (U 36, B 1, B 14);
   (B 2, U 27, U 26); (U 5, B 20, B 4); (U 9, B 26, B 14); (B 27, U 13, U 46); (B 44, U 2, U 10); (B 8, B 49, B 35);
   (B 6, U 1, U 34)]
  [(T 45, T 3, U 25); (T 46, T 1, T 14); (T 18, T 44, T 0); (U 22, U 47, U 31); (T 7, U 32, U 32); (U 21, U 5, T 7);
   (U 36, T 33, U 7); (U 13, T 20, U 18); (U 25, T 5, T 23); (T 6, T 30, T 14); (U 39, T 27, T 44);
   (T 16, T 37, T 42); (U 1, T 5, U 41); (U 33, T 20, U 18); (T 23, U 26, T 49); (T 43, U 21, U 43);
   (T 7, U 34, U 45); (T 34, U 4, T 13); (U 10, T 4, T 9); (U 33, T 38, T 26); (T 49, U 33, T 13); (U 29, U 6, T 3);
   (U 21, U 6, T 47); (T 7, U 6, T 28); (U 4, U 34, T 6); (U 40, T 24, T 16); (T 39, U 4, U 12); (T 0, U 0, U 24);
   (T 24, U 1, T 11); (T 4, U 24, U 24); (U 2, U 48, T 23); (U 42, U 20, T 45); (T 25, U 49, T 14);
   (U 15, U 40, U 31); (T 39, T 1, U 20); (T 20, U 4, U 17); (T 28, T 16, T 16); (T 49, U 19, T 33);
   (T 18, U 13, T 45); (T 3, U 38, U 33); (T 22, T 12, T 9); (U 46, U 37, U 33); (T 40, U 28, U 1);
   (U 21, T 46, U 26); (U 37, U 29, T 35); (U 28, T 2, U 19); (T 26, T 39, T 0); (U 0, U 2, U 34); (U 19, U 9, T 9);
   (U 29, T 14, U 21); (T 47, T 44, T 45); (T 45, U 6, U 38); (T 10, T 39, U 22); (T 23, T 44, T 0);
   (T 46, T 42, U 19); (T 15, T 45, U 29); (T 22, T 13, U 31); (U 30, T 49, U 22); (U 48, U 46, T 23);
   (U 48, U 34, T 31); (U 37, U 35, T 4); (U 8, U 39, U 41); (U 0, U 23, T 7); (U 26, U 9, U 35); (T 40, T 39, U 35);
   (T 13, T 37, U 19); (U 5, T 2, T 24); (U 4, T 40, U 24); (U 31, T 6, U 20); (T 41, U 0, U 45); (U 16, T 43, T 1);
   (U 46, U 17, U 23); (U 18, U 39, U 5); (U 15, U 2, U 41); (U 34, T 22, U 20); (U 37, T 12, U 36);
   (T 24, T 11, U 35); (T 30, T 42, T 27); (T 5, U 40, T 19); (U 0, T 5, U 23); (U 44, U 25, U 5); (T 0, U 24, T 11);
   (U 5, T 6, T 20); (T 35, U 28, U 43); (U 36, T 42, U 41); (U 19, U 40, U 38); (T 31, U 12, T 13);
   (T 12, U 6, T 5); (T 29, U 30, U 20); (T 11, U 7, T 10); (U 42, T 42, T 6); (U 39, U 12, T 36); (U 36, T 1, T 14);
   (T 2, U 27, U 26); (U 5, T 20, T 4); (U 9, T 26, T 14); (T 27, U 13, U 46); (T 44, U 2, U 10); (T 8, T 49, T 35);
   (T 6, U 1, U 34)] = true.
Proof. vm_compute; reflexivity. Qed.

Example iso_188 : found
  [(U 37, U 4, U 38); (B 33, U 30, B 14); (B 12, B 41, U 7); (B 9, B 45, U 46); (B 18, B 49, B 6); (B 34, B 40, B 5);
   (U 28, U 12, U 11); (U 27, B 6, U 18); (B 29, U 34, U 5); (B 14, B 38, U 11); (U 32, B 43, B 14);
   (B 44, B 27, B 12); (B 30, U 28, U 3); (U 13, B 19, B 3); (B 28, U 43, B 45); (B 6, B 10, U 14);
   (U 47, B 0, B 22); (U 48, B 27, U 49); (U 27, U 24, B 37); (B 35, B 13, B 34); (B 10, B 47, U 13);
   (B 10, B 16, B 41); (U 2, B 14, U 29); (B 40, U 8, B 3); (B 29, B 41, U 15); (B 38, B 34, B 19);
   (B 25, U 10, U 47); (U 2, B 32, U 4); (B 44, B 16, U 49); (B 40, U 41, B 26); (B 49, U 6, U 18); (B 1, U 17, B 7);
   (U 9, U 25, B 5); (B 6, B 13, U 38); (B 37, B 11, U 40); (B 45, B 45, U 30); (B 10, U 49, U 37); (B 1, U 5, B 26);
   (B 27, U 43, B 43); (U 14, B 14, U 14); (B 25, U 38, U 36); (B 4, B 11, U 34); (U 26, U 9, B 31);
   (B 21, U 25, U 2); (B 5, B 17, U 40); (B 37, B 22, B 22); (B 15, U 20, U 45); (B 37, B 39, U 18);
   (B 32, B 12, U 47); (U 45, U 5, U 44); (U 37, U 17, U 30); (B 1, B 19, U 39); (B 13, B 23, B 37);
   (B 45, B 0, B 36); (B 18, B 23, B 44); (B 11, B 10, U 18); (U 18, B 7, U 9); (B 48, U 27, U 22);
   (U 20, B 46, B 46); (B 22, B 16, U 39); (U 14, B 46, U 23); (U 39, B 19, U 5); (U 22, B 43, U 28);
   (U 32, B 40, U 39); (B 12, B 36, B 0); (U 2, B 28, B 20); (B 32, B 22, U 29); (B 28, U 26, B 16);
   (B 22, B 17, U 28); (U 48, B 32, U 8); (U 48, B 14, B 12); (B 0, B 36, U 28); (B 2, B 14, B 13); (B 3, B 39, B 4);
   (U 44, U 11, B 34); (U 45, B 17, U 34); (U 31, B 28, B 42); (B 5, B 32, B 13); (B 6, U 8, B 24);
   (U 27, B 42, B 21); (B 29, U 8, U 0); (B 10, B 35, B 47); (B 28, B 22, B 15); (B 45, B 28, B 47);
   (B 2, U 6, U 24); (U 21, B 35, B 36); (B 26, U 35, U 12); (U 0, U 9, B 30); (B 32, U 28, B 45);
   (B 46, B 37, B 37); (U 13, U 31, B 28); (U 17, U 27, U 27); (B 6, U 47, B 21); (B 10, B 38, U 31);
   (B 34, B 44, U 11); (B 15, B 35, U 19); (U 13, U 35, B 5); (B 8, U 9, U 15); (B 46, B 41, U 5); (U 8, B 16, B 25)]
  [(U 37, U 4, U 38); (T 33, U 30, T 14); (T 12, T 41, U 7); (T 9, T 45, U 46); (T 18, T 49, T 6); (T 34, T 40, T 5);
   (U 28, U 12, U 11); (U 27, T 6, U 18); (T 29, U 34, U 5); (T 14, T 38, U 11); (U 32, T 43, T 14);
   (T 44, T 27, T 12); (T 30, U 28, U 3); (U 13, T 19, T 3); (T 28, U 43, T 45); (T 6, T 10, U 14);
   (U 47, T 0, T 22); (U 48, T 27, U 49); (U 27, U 24, T 37); (T 35, T 13, T 34); (T 10, T 47, U 13);
   (T 10, T 16, T 41); (U 2, T 14, U 29); (T 40, U 8, T 3); (T 29, T 41, U 15); (T 38, T 34, T 19);
   (T 25, U 10, U 47); (U 2, T 32, U 4); (T 44, T 16, U 49); (T 40, U 41, T 26); (T 49, U 6, U 18); (T 1, U 17, T 7);
   (U 9, U 25, T 5); (T 6, T 13, U 38); (T 37, T 11, U 40); (T 45, T 45, U 30); (T 10, U 49, U 37); (T 1, U 5, T 26);
   (T 27, U 43, T 43); (U 14, T 14, U 14); (T 25, U 38, U 36); (T 4, T 11, U 34); (U 26, U 9, T 31);
   (T 21, U 25, U 2); (T 5, T 17, U 40); (T 37, T 22, T 22); (T 15, U 20, U 45); (T 37, T 39, U 18);
   (T 32, T 12, U 47); (U 45, U 5, U 44); (U 37, U 17, U 30); (T 1, T 19, U 39); (T 13, T 23, T 37);
   (T 45, T 0, T 36); (T 18, T 23, T 44); (T 11, T 10, U 18); (U 18, T 7, U 9); (T 48, U 27, U 22);
   (U 20, T 46, T 46); (T 22, T 16, U 39); (U 14, T 46, U 23); (U 39, T 19, U 5); (U 22, T 43, U 28);
   (U 32, T 40, U 39); (T 12, T 36, T 0); (U 2, T 28, T 20); (T 32, T 22, U 29); (T 28, U 26, T 16);
   (T 22, T 17, U 28); (U 48, T 32, U 8); (U 48, T 14, T 12); (T 0, T 36, U 28); (T 2, T 14, T 13); (T 3, T 39, T 4);
   (U 44, U 11, T 34); (U 45, T 17, U 34); (U 31, T 28, T 42); (T 5, T 32, T 13); (T 6, U 8, T 24);
   (U 27, T 42, T 21); (T 29, U 8, U 0); (T 10, T 35, T 47); (T 28, T 22, T 15); (T 45, T 28, T 47);
   (T 2, U 6, U 24); (U 21, T 35, T 36); (T 26, U 35, U 12); (U 0, U 9, T 30); (T 32, U 28, T 45);
   (T 46, T 37, T 37); (U 13, U 31, T 28); (U 17, U 27, U 27); (T 6, U 47, T 21); (T 10, T 38, U 31);
   (T 34, T 44, U 11); (T 15, T 35, U 19); (U 13, U 35, T 5); (T 8, U 9, U 15); (T 46, T 41, U 5); (U 8, T 16, T 25)] = true.
Proof. vm_compute; reflexivity. Qed.

Example iso_189 : found
  [(B 45, B 38, U 26); (U 28, B 12, B 16); (U 27, U 9, B 37); (U 1, U 48, B 0); (U 2, B 47, U 4); (B 46, U 7, B 4);
   (U 8, U 2, B 26); (U 30, U 10, U 4); (U 34, B 0, B 18); (B 40, U 11, B 33); (B 16, B 17, B 16);
   (B 34, B 43, B 36); (B 29, U 23, U 5); (B 20, U 41, U 41); (B 19, U 41, B 12); (B 36, B 47, B 33);
   (U 21, U 24, U 31); (B 1, U 26, B 36); (U 14, B 37, B 43); (B 6, U 34, U 38); (B 20, B 7, U 0);
   (U 24, U 47, B 27); (B 1, B 13, B 29); (U 46, U 38, U 33); (B 16, B 31, U 22); (B 38, B 24, U 40);
   (U 45, B 14, U 32); (U 5, B 44, B 24); (B 32, B 9, B 43); (B 28, U 42, U 49); (U 21, B 24, U 4);
   (U 18, U 49, B 44); (B 9, U 5, U 24); (U 46, U 1, U 8); (B 28, U 19, U 32); (U 11, B 49, U 48);
   (B 30, U 37, U 11); (B 7, B 39, U 37); (U 32, U 24, U 41); (B 15, B 11, U 16); (U 22, U 14, U 40);
   (B 15, B 30, U 32); (B 40, U 45, B 32); (U 46, U 41, U 44); (B 25, U 19, U 42); (U 12, B 42, B 5);
   (B 17, U 12, B 19); (B 42, U 43, B 21); (B 0, B 16, U 30); (U 30, B 6, U 13); (U 40, U 27, U 33);
   (B 31, U 37, U 35); (B 40, B 17, B 12); (B 1, U 21, U 39); (U 46, B 24, U 21); (B 36, B 24, B 18);
   (B 7, U 26, U 49); (B 28, U 0, U 36); (B 5, B 36, B 2); (B 37, U 4, U 38); (B 13, U 15, B 25); (U 9, B 22, U 36);
   (U 24, B 49, U 10); (B 8, B 35, U 40); (U 47, B 48, U 36); (B 33, B 41, B 39); (B 41, B 35, U 19);
   (B 0, B 24, B 49); (B 45, U 39, U 29); (U 5, B 45, U 14); (U 37, B 39, B 33); (U 4, B 25, B 35); (U 7, U 3, B 1);
   (U 10, U 25, U 32); (U 8, B 36, B 8); (U 20, B 29, U 47); (B 19, U 15, B 33); (B 19, B 9, U 17);
   (B 22, B 28, B 4); (B 32, B 23, B 48); (U 18, B 12, B 4); (B 49, B 26, U 25); (U 8, B 30, B 38);
   (B 30, B 13, B 28); (U 15, U 3, U 26); (U 26, B 42, B 22); (U 27, U 34, U 47); (U 5, U 38, B 43);
   (U 0, B 22, B 11); (U 6, B 16, U 29); (U 5, U 20, U 1); (B 45, B 9, U 2); (U 35, B 34, B 12); (U 40, B 48, B 41);
   (U 21, B 35, U 39); (U 42, U 18, B 41); (U 24, U 1, U 16); (B 48, U 11, B 14); (B 0, U 27, U 45);
   (B 39, B 31, B 18)]
  [(T 45, T 38, U 26); (U 28, T 12, T 16); (U 27, U 9, T 37); (U 1, U 48, T 0); (U 2, T 47, U 4); (T 46, U 7, T 4);
   (U 8, U 2, T 26); (U 30, U 10, U 4); (U 34, T 0, T 18); (T 40, U 11, T 33); (T 16, T 17, T 16);
   (T 34, T 43, T 36); (T 29, U 23, U 5); (T 20, U 41, U 41); (T 19, U 41, T 12); (T 36, T 47, T 33);
   (U 21, U 24, U 31); (T 1, U 26, T 36); (U 14, T 37, T 43); (T 6, U 34, U 38); (T 20, T 7, U 0);
   (U 24, U 47, T 27); (T 1, T 13, T 29); (U 46, U 38, U 33); (T 16, T 31, U 22); (T 38, T 24, U 40);
   (U 45, T 14, U 32); (U 5, T 44, T 24); (T 32, T 9, T 43); (T 28, U 42, U 49); (U 21, T 24, U 4);
   (U 18, U 49, T 44); (T 9, U 5, U 24); (U 46, U 1, U 8); (T 28, U 19, U 32); (U 11, T 49, U 48);
   (T 30, U 37, U 11); (T 7, T 39, U 37); (U 32, U 24, U 41); (T 15, T 11, U 16); (U 22, U 14, U 40);
   (T 15, T 30, U 32); (T 40, U 45, T 32); (U 46, U 41, U 44); (T 25, U 19, U 42); (U 12, T 42, T 5);
   (T 17, U 12, T 19); (T 42, U 43, T 21); (T 0, T 16, U 30); (U 30, T 6, U 13); (U 40, U 27, U 33);
   (T 31, U 37, U 35); (T 40, T 17, T 12); (T 1, U 21, U 39); (U 46, T 24, U 21); (T 36, T 24, T 18);
   (T 7, U 26, U 49); (T 28, U 0, U 36); (T 5, T 36, T 2); (T 37, U 4, U 38); (T 13, U 15, T 25); (U 9, T 22, U 36);
   (U 24, T 49, U 10); (T 8, T 35, U 40); (U 47, T 48, U 36); (T 33, T 41, T 39); (T 41, T 35, U 19);
   (T 0, T 24, T 49); (T 45, U 39, U 29); (U 5, T 45, U 14); (U 37, T 39, T 33); (U 4, T 25, T 35); (U 7, U 3, T 1);
   (U 10, U 25, U 32); (U 8, T 36, T 8); (U 20, T 29, U 47); (T 19, U 15, T 33); (T 19, T 9, U 17);
   (T 22, T 28, T 4); (T 32, T 23, T 48); (U 18, T 12, T 4); (T 49, T 26, U 25); (U 8, T 30, T 38);
   (T 30, T 13, T 28); (U 15, U 3, U 26); (U 26, T 42, T 22); (U 27, U 34, U 47); (U 5, U 38, T 43);
   (U 0, T 22, T 11); (U 6, T 16, U 29); (U 5, U 20, U 1); (T 45, T 9, U 2); (U 35, T 34, T 12); (U 40, T 48, T 41);
   (U 21, T 35, U 39); (U 42, U 18, T 41); (U 24, U 1, U 16); (T 48, U 11, T 14); (T 0, U 27, U 45);
   (T 39, T 31, T 18)] = true.
Proof. vm_compute; reflexivity. Qed.

Example iso_190 : found
  [(B 44, B 24, U 3); (B 25, U 19, U 1); (U 39, U 14, B 16); (B 24, U 34, U 28); (U 3, U 6, B 20); (B 34, U 30, U 7);
   (B 3, B 33, B 30); (B 35, B 29, U 39); (U 18, B 49, B 10); (U 35, B 2, U 49); (U 16, B 46, B 24);
   (U 43, U 20, U 23); (B 1, U 13, U 1); (U 24, B 10, U 40); (B 38, U 20, U 36); (U 22, B 10, B 27);
   (U 25, U 17, U 38); (B 17, B 33, B 9); (B 26, U 18, U 41); (U 31, U 12, U 22); (U 22, B 14, U 49);
   (U 19, B 33, B 35); (U 1, U 16, B 11); (U 40, B 31, B 9); (U 6, U 38, B 37); (B 14, U 26, B 46);
   (U 21, U 36, B 32); (U 2, U 28, U 4); (B 3, B 19, B 29); (U 28, U 36, B 23); (B 7, B 14, B 16); (U 11, U 6, B 2);
   (B 22, U 40, B 38); (B 36, U 3, B 30); (B 7, B 18, U 49); (B 2, U 8, U 8); (B 44, B 10, B 38); (B 13, U 26, B 13);
   (U 17, U 30, U 13); (U 33, U 33, U 38); (B 19, U 27, B 9); (B 47, B 13, U 49); (B 32, U 23, B 26);
   (B 32, B 3, U 41); (B 25, B 20, U 27); (U 3, U 10, B 49); (U 40, B 11, U 22); (U 1, U 22, U 13);
   (U 43, U 19, U 49); (B 2, B 31, U 49); (B 30, B 27, U 3); (U 21, B 34, U 34); (U 3, B 33, U 35);
   (B 36, U 20, U 36); (U 27, U 28, U 33); (U 47, U 45, B 22); (B 4, B 9, B 6); (B 18, U 38, U 16);
   (U 46, B 15, B 16); (B 26, B 29, U 5); (U 36, U 41, B 10); (B 25, U 21, U 7); (U 26, B 34, U 6); (U 18, B 1, U 3);
   (B 34, B 41, B 24); (B 29, B 7, U 44); (U 43, B 25, U 7); (U 23, B 32, U 22); (B 30, U 32, B 14);
   (B 7, B 25, U 12); (U 5, U 27, U 28); (B 22, U 20, B 15); (B 11, U 46, B 35); (B 49, U 40, U 26);
   (U 48, U 35, U 15); (U 18, B 15, U 27); (U 26, U 32, B 22); (B 0, B 40, U 48); (B 27, B 0, B 36);
   (U 22, U 38, U 48); (U 16, U 41, U 47); (B 42, B 20, U 38); (U 15, U 32, B 22); (U 14, U 21, U 3);
   (U 21, B 12, B 34); (B 4, B 3, B 36); (U 10, U 12, B 40); (B 6, U 8, U 9); (U 7, U 49, U 6); (U 3, U 27, B 39);
   (U 49, U 48, B 6); (U 20, B 8, B 14); (U 20, U 35, U 47); (U 21, U 39, B 1); (B 13, B 7, U 2); (B 43, U 31, U 49);
   (U 49, B 28, B 40); (B 24, U 15, U 40); (U 8, U 27, B 18); (U 22, U 4, U 21)]
  [(T 44, T 24, U 3); (T 25, U 19, U 1); (U 39, U 14, T 16); (T 24, U 34, U 28); (U 3, U 6, T 20); (T 34, U 30, U 7);
   (T 3, T 33, T 30); (T 35, T 29, U 39); (U 18, T 49, T 10); (U 35, T 2, U 49); (U 16, T 46, T 24);
   (U 43, U 20, U 23); (T 1, U 13, U 1); (U 24, T 10, U 40); (T 38, U 20, U 36); (U 22, T 10, T 27);
   (U 25, U 17, U 38); (T 17, T 33, T 9); (T 26, U 18, U 41); (U 31, U 12, U 22); (U 22, T 14, U 49);
   (U 19, T 33, T 35); (U 1, U 16, T 11); (U 40, T 31, T 9); (U 6, U 38, T 37); (T 14, U 26, T 46);
   (U 21, U 36, T 32); (U 2, U 28, U 4); (T 3, T 19, T 29); (U 28, U 36, T 23); (T 7, T 14, T 16); (U 11, U 6, T 2);
   (T 22, U 40, T 38); (T 36, U 3, T 30); (T 7, T 18, U 49); (T 2, U 8, U 8); (T 44, T 10, T 38); (T 13, U 26, T 13);
   (U 17, U 30, U 13); (U 33, U 33, U 38); (T 19, U 27, T 9); (T 47, T 13, U 49); (T 32, U 23, T 26);
   (T 32, T 3, U 41); (T 25, T 20, U 27); (U 3, U 10, T 49); (U 40, T 11, U 22); (U 1, U 22, U 13);
   (U 43, U 19, U 49); (T 2, T 31, U 49); (T 30, T 27, U 3); (U 21, T 34, U 34); (U 3, T 33, U 35);
   (T 36, U 20, U 36); (U 27, U 28, U 33); (U 47, U 45, T 22); (T 4, T 9, T 6); (T 18, U 38, U 16);
   (U 46, T 15, T 16); (T 26, T 29, U 5); (U 36, U 41, T 10); (T 25, U 21, U 7); (U 26, T 34, U 6); (U 18, T 1, U 3);
   (T 34, T 41, T 24); (T 29, T 7, U 44); (U 43, T 25, U 7); (U 23, T 32, U 22); (T 30, U 32, T 14);
   (T 7, T 25, U 12); (U 5, U 27, U 28); (T 22, U 20, T 15); (T 11, U 46, T 35); (T 49, U 40, U 26);
   (U 48, U 35, U 15); (U 18, T 15, U 27); (U 26, U 32, T 22); (T 0, T 40, U 48); (T 27, T 0, T 36);
   (U 22, U 38, U 48); (U 16, U 41, U 47); (T 42, T 20, U 38); (U 15, U 32, T 22); (U 14, U 21, U 3);
   (U 21, T 12, T 34); (T 4, T 3, T 36); (U 10, U 12, T 40); (T 6, U 8, U 9); (U 7, U 49, U 6); (U 3, U 27, T 39);
   (U 49, U 48, T 6); (U 20, T 8, T 14); (U 20, U 35, U 47); (U 21, U 39, T 1); (T 13, T 7, U 2); (T 43, U 31, U 49);
   (U 49, T 28, T 40); (T 24, U 15, U 40); (U 8, U 27, T 18); (U 22, U 4, U 21)] = true.
Proof. vm_compute; reflexivity. Qed.

Example iso_191 : found
  [(U 43, B 21, U 4); (U 16, U 16, B 8); (U 7, U 22, B 42); (U 3, U 16, U 19); (B 21, B 47, U 9); (U 32, B 11, B 32);
   (U 3, U 44, B 33); (B 44, B 7, U 40); (B 14, U 31, B 38); (B 14, B 48, B 13); (U 30, U 38, B 42);
   (U 1, B 8, U 11); (U 44, U 6, U 33); (U 16, B 3, U 7); (B 28, U 8, U 29); (U 10, B 42, U 22); (B 42, B 31, B 2);
   (U 22, B 36, U 35); (B 20, U 24, U 41); (B 34, B 16, B 23); (B 18, B 28, B 4); (B 21, U 41, U 18);
   (U 40, U 11, U 6); (U 15, B 10, B 39); (U 32, B 27, U 21); (U 34, B 35, B 41); (U 17, U 7, B 24);
   (U 3, U 24, U 1); (B 27, U 36, B 44); (B 17, U 32, B 40); (B 10, B 36, U 25); (B 40, U 47, B 38);
   (U 45, U 22, U 25); (B 11, U 48, B 22); (U 27, B 39, B 22); (U 23, U 4, U 1); (U 1, U 9, U 5); (U 25, U 38, B 47);
   (U 35, B 21, B 27); (B 13, B 11, B 36); (U 37, U 34, B 2); (U 2, U 23, U 9); (U 16, B 8, U 18); (B 37, U 36, B 7);
   (B 3, U 20, U 42); (U 18, U 14, B 19); (U 15, U 35, B 26); (B 12, U 4, B 9); (U 43, U 26, B 20);
   (U 10, B 38, B 24); (U 3, B 44, B 46); (U 41, U 12, U 45); (U 0, B 28, B 10); (B 6, B 27, B 49);
   (U 22, U 36, U 34); (B 15, B 42, U 44); (U 21, B 1, B 29); (U 20, B 43, U 26); (U 15, U 13, B 47);
   (B 34, B 42, B 37); (B 11, U 17, U 34); (U 21, U 6, B 5); (U 44, B 5, U 47); (U 49, U 47, B 35);
   (U 18, U 47, B 8); (U 1, U 49, B 27); (B 49, U 42, B 37); (U 9, B 21, B 34); (U 5, B 48, B 25); (U 1, B 18, B 47);
   (U 14, U 28, U 37); (U 11, B 40, U 3); (B 24, B 19, U 23); (U 49, B 21, U 42); (B 12, U 12, U 23);
   (B 40, U 34, B 42); (U 47, B 21, U 30); (U 2, U 44, B 5); (U 5, B 29, U 38); (B 49, B 49, B 48);
   (B 18, B 18, B 39); (U 22, U 43, U 28); (U 21, U 30, U 16); (U 29, U 36, U 25); (U 6, B 1, U 11);
   (U 8, B 1, U 44); (U 34, U 41, B 37); (U 39, B 34, U 17); (U 46, U 47, U 43); (U 34, U 33, B 42);
   (U 9, U 18, U 20); (U 18, U 29, B 15); (U 46, U 16, B 23); (U 39, B 19, B 34); (B 29, U 24, B 6);
   (B 29, B 38, U 35); (U 45, B 46, B 39); (B 46, U 12, U 5); (U 27, B 4, B 14); (U 43, U 45, U 48)]
  [(U 43, T 21, U 4); (U 16, U 16, T 8); (U 7, U 22, T 42); (U 3, U 16, U 19); (T 21, T 47, U 9); (U 32, T 11, T 32);
   (U 3, U 44, T 33); (T 44, T 7, U 40); (T 14, U 31, T 38); (T 14, T 48, T 13); (U 30, U 38, T 42);
   (U 1, T 8, U 11); (U 44, U 6, U 33); (U 16, T 3, U 7); (T 28, U 8, U 29); (U 10, T 42, U 22); (T 42, T 31, T 2);
   (U 22, T 36, U 35); (T 20, U 24, U 41); (T 34, T 16, T 23); (T 18, T 28, T 4); (T 21, U 41, U 18);
   (U 40, U 11, U 6); (U 15, T 10, T 39); (U 32, T 27, U 21); (U 34, T 35, T 41); (U 17, U 7, T 24);
   (U 3, U 24, U 1); (T 27, U 36, T 44); (T 17, U 32, T 40); (T 10, T 36, U 25); (T 40, U 47, T 38);
   (U 45, U 22, U 25); (T 11, U 48, T 22); (U 27, T 39, T 22); (U 23, U 4, U 1); (U 1, U 9, U 5); (U 25, U 38, T 47);
   (U 35, T 21, T 27); (T 13, T 11, T 36); (U 37, U 34, T 2); (U 2, U 23, U 9); (U 16, T 8, U 18); (T 37, U 36, T 7);
   (T 3, U 20, U 42); (U 18, U 14, T 19); (U 15, U 35, T 26); (T 12, U 4, T 9); (U 43, U 26, T 20);
   (U 10, T 38, T 24); (U 3, T 44, T 46); (U 41, U 12, U 45); (U 0, T 28, T 10); (T 6, T 27, T 49);
   (U 22, U 36, U 34); (T 15, T 42, U 44); (U 21, T 1, T 29); (U 20, T 43, U 26); (U 15, U 13, T 47);
   (T 34, T 42, T 37); (T 11, U 17, U 34); (U 21, U 6, T 5); (U 44, T 5, U 47); (U 49, U 47, T 35);
   (U 18, U 47, T 8); (U 1, U 49, T 27); (T 49, U 42, T 37); (U 9, T 21, T 34); (U 5, T 48, T 25); (U 1, T 18, T 47);
   (U 14, U 28, U 37); (U 11, T 40, U 3); (T 24, T 19, U 23); (U 49, T 21, U 42); (T 12, U 12, U 23);
   (T 40, U 34, T 42); (U 47, T 21, U 30); (U 2, U 44, T 5); (U 5, T 29, U 38); (T 49, T 49, T 48);
   (T 18, T 18, T 39); (U 22, U 43, U 28); (U 21, U 30, U 16); (U 29, U 36, U 25); (U 6, T 1, U 11);
   (U 8, T 1, U 44); (U 34, U 41, T 37); (U 39, T 34, U 17); (U 46, U 47, U 43); (U 34, U 33, T 42);
   (U 9, U 18, U 20); (U 18, U 29, T 15); (U 46, U 16, T 23); (U 39, T 19, T 34); (T 29, U 24, T 6);
   (T 29, T 38, U 35); (U 45, T 46, T 39); (T 46, U 12, U 5); (U 27, T 4, T 14); (U 43, U 45, U 48)] = true.
Proof. vm_compute; reflexivity. Qed.

Example iso_192 : found
  [(U 15, B 46, B 28); (U 3, B 49, U 45); (U 32, U 2, U 14); (U 7, B 23, B 16); (U 49, B 25, U 20);
   (U 22, U 29, U 36); (B 1, U 1, B 3); (B 24, U 15, B 21); (U 40, U 35, U 11); (B 5, B 10, B 12); (B 6, B 19, B 13);
   (B 16, B 27, B 47); (U 9, B 17, B 17); (U 21, B 20, B 22); (U 5, U 19, B 22); (U 14, U 2, U 26);
   (U 46, B 1, B 40); (B 21, B 42, B 11); (U 23, B 42, U 30); (B 20, U 15, B 26); (U 25, U 14, U 3);
   (U 32, B 37, U 12); (U 19, U 40, U 31); (U 17, B 18, U 6); (U 43, B 6, B 17); (U 46, B 48, B 31);
   (U 5, U 20, B 49); (B 42, U 8, U 43); (B 45, U 14, U 29); (B 27, B 7, U 22); (U 48, B 32, B 10);
   (U 26, U 4, U 26); (B 36, U 47, B 47); (U 14, B 19, B 6); (B 33, B 16, B 40); (U 19, B 20, B 46);
   (U 48, U 22, U 35); (B 49, U 38, U 22); (B 8, U 3, B 42); (U 46, B 4, B 5); (B 9, B 36, U 40); (B 44, B 49, U 17);
   (B 1, B 38, B 16); (B 43, U 12, B 25); (B 20, U 29, B 49); (B 4, U 12, B 4); (B 13, B 29, B 1); (B 0, U 38, B 33);
   (B 34, B 3, B 7); (U 7, B 25, U 31); (U 35, U 12, U 12); (B 4, B 19, U 38); (U 37, B 41, U 22);
   (B 46, B 20, B 14); (U 47, U 29, U 26); (B 47, U 28, B 1); (U 8, U 43, U 27); (U 27, B 33, B 45);
   (U 7, B 24, B 0); (U 20, B 42, B 18); (U 39, U 14, B 16); (B 13, B 0, U 25); (U 34, U 30, B 27);
   (B 23, B 22, U 1); (B 30, U 4, U 2); (B 33, B 8, B 22); (U 36, B 47, B 20); (U 31, U 25, U 15); (U 1, B 13, B 13);
   (U 46, B 6, U 8); (U 3, B 0, B 19); (U 15, U 25, U 18); (U 7, B 11, U 7); (U 1, U 17, B 8); (B 23, U 29, B 22);
   (B 30, B 23, B 38); (B 13, B 7, U 36); (U 41, B 9, B 44); (B 36, B 13, B 17); (B 33, B 21, B 33);
   (B 40, U 47, B 37); (B 27, U 20, U 32); (B 29, B 42, U 45); (U 11, U 2, B 8); (B 0, U 45, U 25);
   (U 39, U 11, U 26); (B 17, B 5, U 25); (B 48, B 48, B 0); (U 16, B 26, U 10); (U 0, B 29, U 48);
   (U 19, B 31, B 21); (U 8, B 47, B 7); (B 13, U 9, B 0); (B 29, U 14, U 46); (B 41, B 49, U 16);
   (U 42, U 22, U 18); (U 3, B 45, B 43); (B 39, B 34, B 32); (U 41, B 29, B 30); (B 19, U 40, B 46)]
  [(U 15, T 46, T 28); (U 3, T 49, U 45); (U 32, U 2, U 14); (U 7, T 23, T 16); (U 49, T 25, U 20);
   (U 22, U 29, U 36); (T 1, U 1, T 3); (T 24, U 15, T 21); (U 40, U 35, U 11); (T 5, T 10, T 12); (T 6, T 19, T 13);
   (T 16, T 27, T 47); (U 9, T 17, T 17); (U 21, T 20, T 22); (U 5, U 19, T 22); (U 14, U 2, U 26);
   (U 46, T 1, T 40); (T 21, T 42, T 11); (U 23, T 42, U 30); (T 20, U 15, T 26); (U 25, U 14, U 3);
   (U 32, T 37, U 12); (U 19, U 40, U 31); (U 17, T 18, U 6); (U 43, T 6, T 17); (U 46, T 48, T 31);
   (U 5, U 20, T 49); (T 42, U 8, U 43); (T 45, U 14, U 29); (T 27, T 7, U 22); (U 48, T 32, T 10);
   (U 26, U 4, U 26); (T 36, U 47, T 47); (U 14, T 19, T 6); (T 33, T 16, T 40); (U 19, T 20, T 46);
   (U 48, U 22, U 35); (T 49, U 38, U 22); (T 8, U 3, T 42); (U 46, T 4, T 5); (T 9, T 36, U 40); (T 44, T 49, U 17);
   (T 1, T 38, T 16); (T 43, U 12, T 25); (T 20, U 29, T 49); (T 4, U 12, T 4); (T 13, T 29, T 1); (T 0, U 38, T 33);
   (T 34, T 3, T 7); (U 7, T 25, U 31); (U 35, U 12, U 12); (T 4, T 19, U 38); (U 37, T 41, U 22);
   (T 46, T 20, T 14); (U 47, U 29, U 26); (T 47, U 28, T 1); (U 8, U 43, U 27); (U 27, T 33, T 45);
   (U 7, T 24, T 0); (U 20, T 42, T 18); (U 39, U 14, T 16); (T 13, T 0, U 25); (U 34, U 30, T 27);
   (T 23, T 22, U 1); (T 30, U 4, U 2); (T 33, T 8, T 22); (U 36, T 47, T 20); (U 31, U 25, U 15); (U 1, T 13, T 13);
   (U 46, T 6, U 8); (U 3, T 0, T 19); (U 15, U 25, U 18); (U 7, T 11, U 7); (U 1, U 17, T 8); (T 23, U 29, T 22);
   (T 30, T 23, T 38); (T 13, T 7, U 36); (U 41, T 9, T 44); (T 36, T 13, T 17); (T 33, T 21, T 33);
   (T 40, U 47, T 37); (T 27, U 20, U 32); (T 29, T 42, U 45); (U 11, U 2, T 8); (T 0, U 45, U 25);
   (U 39, U 11, U 26); (T 17, T 5, U 25); (T 48, T 48, T 0); (U 16, T 26, U 10); (U 0, T 29, U 48);
   (U 19, T 31, T 21); (U 8, T 47, T 7); (T 13, U 9, T 0); (T 29, U 14, U 46); (T 41, T 49, U 16);
   (U 42, U 22, U 18); (U 3, T 45, T 43); (T 39, T 34, T 32); (U 41, T 29, T 30); (T 19, U 40, T 46)] = true.
Proof. vm_compute; reflexivity. Qed.

Example iso_193 : found
  [(B 31, B 24, U 12); (U 27, B 26, U 45); (B 46, B 18, B 0); (U 31, U 27, U 1); (B 3, B 4, U 40); (U 12, B 33, B 4);
   (U 24, B 9, U 25); (B 23, B 21, U 47); (U 9, U 3, U 43); (U 3, B 44, U 29); (B 35, B 3, U 33); (B 44, U 35, B 49);
   (U 32, U 44, B 43); (B 12, U 48, U 43); (B 22, U 46, B 25); (B 25, U 45, U 3); (U 44, B 30, U 47);
   (U 32, U 31, U 10); (U 39, B 34, B 21); (U 45, B 24, B 4); (B 16, B 16, B 22); (U 41, B 8, B 34);
   (B 39, U 44, U 28); (U 15, U 25, B 16); (B 12, U 33, U 28); (U 46, U 11, U 40); (U 12, B 15, U 40);
   (U 23, U 49, B 26); (B 31, B 35, U 44); (U 9, U 1, U 15); (U 36, U 11, B 30); (B 1, B 4, B 16);
   (B 33, U 33, U 23); (U 21, B 3, U 33); (U 23, B 48, B 5); (U 11, B 39, B 28); (U 24, B 14, U 28);
   (B 25, U 0, U 23); (U 23, U 48, U 30); (B 6, U 7, B 6); (U 37, B 3, B 12); (U 13, U 29, B 32); (U 11, U 34, B 27);
   (B 38, B 14, B 22); (B 41, U 9, B 0); (U 42, U 13, B 34); (U 34, U 8, U 36); (B 48, B 5, B 19);
   (U 23, U 26, B 13); (U 43, B 27, B 30); (U 32, U 43, B 1); (B 3, B 49, B 15); (B 3, U 46, U 0); (B 39, B 29, U 6);
   (U 6, U 13, U 33); (U 15, U 16, U 21); (B 16, U 47, B 46); (B 27, B 18, B 1); (U 21, U 16, B 33);
   (B 32, U 26, U 21); (B 27, U 34, U 2); (B 8, U 22, B 6); (U 18, B 31, U 48); (B 46, B 44, B 7); (B 18, U 42, B 5);
   (U 36, U 45, B 39); (B 11, U 43, U 32); (U 43, B 37, B 4); (B 7, U 18, B 49); (B 49, U 16, B 41); (U 8, B 9, U 0);
   (U 41, U 29, B 29); (B 4, B 26, U 14); (B 3, U 19, B 32); (B 21, B 49, U 48); (U 19, B 25, U 26);
   (U 39, U 8, U 41); (U 48, B 10, B 27); (U 41, B 1, B 27); (U 0, B 37, B 20); (U 11, U 36, U 2); (U 33, B 7, B 3);
   (B 30, U 19, U 24); (B 21, B 39, U 14); (B 28, B 1, U 0); (U 6, B 44, B 38); (U 37, B 3, U 48); (U 9, U 40, B 4);
   (U 28, U 0, B 25); (U 47, U 37, B 20); (B 45, B 5, B 1); (U 24, U 45, U 31); (B 40, B 47, U 39);
   (U 19, B 11, U 11); (U 7, B 36, U 5); (U 4, B 12, U 26); (U 15, B 17, B 36); (B 21, U 36, U 20);
   (U 37, U 13, U 8); (U 39, U 43, U 31)]
  [(T 31, T 24, U 12); (U 27, T 26, U 45); (T 46, T 18, T 0); (U 31, U 27, U 1); (T 3, T 4, U 40); (U 12, T 33, T 4);
   (U 24, T 9, U 25); (T 23, T 21, U 47); (U 9, U 3, U 43); (U 3, T 44, U 29); (T 35, T 3, U 33); (T 44, U 35, T 49);
   (U 32, U 44, T 43); (T 12, U 48, U 43); (T 22, U 46, T 25); (T 25, U 45, U 3); (U 44, T 30, U 47);
   (U 32, U 31, U 10); (U 39, T 34, T 21); (U 45, T 24, T 4); (T 16, T 16, T 22); (U 41, T 8, T 34);
   (T 39, U 44, U 28); (U 15, U 25, T 16); (T 12, U 33, U 28); (U 46, U 11, U 40); (U 12, T 15, U 40);
   (U 23, U 49, T 26); (T 31, T 35, U 44); (U 9, U 1, U 15); (U 36, U 11, T 30); (T 1, T 4, T 16);
   (T 33, U 33, U 23); (U 21, T 3, U 33); (U 23, T 48, T 5); (U 11, T 39, T 28); (U 24, T 14, U 28);
   (T 25, U 0, U 23); (U 23, U 48, U 30); (T 6, U 7, T 6); (U 37, T 3, T 12); (U 13, U 29, T 32); (U 11, U 34, T 27);
   (T 38, T 14, T 22); (T 41, U 9, T 0); (U 42, U 13, T 34); (U 34, U 8, U 36); (T 48, T 5, T 19);
   (U 23, U 26, T 13); (U 43, T 27, T 30); (U 32, U 43, T 1); (T 3, T 49, T 15); (T 3, U 46, U 0); (T 39, T 29, U 6);
   (U 6, U 13, U 33); (U 15, U 16, U 21); (T 16, U 47, T 46); (T 27, T 18, T 1); (U 21, U 16, T 33);
   (T 32, U 26, U 21); (T 27, U 34, U 2); (T 8, U 22, T 6); (U 18, T 31, U 48); (T 46, T 44, T 7); (T 18, U 42, T 5);
   (U 36, U 45, T 39); (T 11, U 43, U 32); (U 43, T 37, T 4); (T 7, U 18, T 49); (T 49, U 16, T 41); (U 8, T 9, U 0);
   (U 41, U 29, T 29); (T 4, T 26, U 14); (T 3, U 19, T 32); (T 21, T 49, U 48); (U 19, T 25, U 26);
   (U 39, U 8, U 41); (U 48, T 10, T 27); (U 41, T 1, T 27); (U 0, T 37, T 20); (U 11, U 36, U 2); (U 33, T 7, T 3);
   (T 30, U 19, U 24); (T 21, T 39, U 14); (T 28, T 1, U 0); (U 6, T 44, T 38); (U 37, T 3, U 48); (U 9, U 40, T 4);
   (U 28, U 0, T 25); (U 47, U 37, T 20); (T 45, T 5, T 1); (U 24, U 45, U 31); (T 40, T 47, U 39);
   (U 19, T 11, U 11); (U 7, T 36, U 5); (U 4, T 12, U 26); (U 15, T 17, T 36); (T 21, U 36, U 20);
   (U 37, U 13, U 8); (U 39, U 43, U 31)] = true.
Proof. vm_compute; reflexivity. Qed.

Example iso_194 : found
  [(B 4, U 9, B 8); (U 21, U 43, U 40); (U 18, B 21, B 47); (B 11, U 1, U 44); (B 28, U 19, B 17); (U 7, B 30, B 34);
   (U 36, B 46, U 37); (B 24, U 36, B 30); (B 10, U 19, B 7); (U 24, U 9, U 6); (U 48, B 24, B 48);
   (B 33, B 17, U 18); (U 45, U 24, U 48); (B 22, U 44, U 23); (B 47, B 37, U 25); (B 45, U 44, B 42);
   (U 1, U 34, U 1); (U 46, B 22, U 35); (U 48, U 34, B 43); (B 27, B 6, B 34); (U 21, B 2, B 27);
   (B 34, U 37, B 27); (U 42, U 31, U 44); (B 47, U 26, U 12); (B 44, U 16, U 38); (U 22, U 23, U 4);
   (U 38, B 23, B 17); (U 31, U 28, B 23); (U 32, B 28, U 20); (U 16, U 15, B 42); (B 37, B 34, U 24);
   (U 5, B 33, U 45); (U 11, U 39, B 43); (U 20, B 31, U 12); (U 42, U 45, U 38); (U 7, B 48, U 48);
   (U 26, B 37, B 36); (U 47, B 44, U 22); (U 12, U 36, B 5); (B 37, B 44, B 35); (U 4, B 26, U 4);
   (U 29, U 27, B 17); (U 37, U 15, B 49); (U 9, B 40, U 6); (B 14, U 5, B 41); (B 48, U 44, B 22);
   (B 35, B 3, U 48); (U 32, U 12, U 2); (U 1, U 33, U 30); (B 45, B 0, U 33); (B 29, B 2, B 6); (B 9, B 48, U 38);
   (U 28, B 3, B 3); (B 39, U 29, U 16); (B 16, U 6, B 10); (B 31, B 11, U 28); (U 41, U 49, B 1); (B 1, B 2, B 35);
   (U 37, U 3, U 42); (B 29, U 28, U 2); (U 21, B 7, B 47); (U 6, U 36, U 6); (B 19, U 6, B 26); (B 14, U 47, B 49);
   (U 31, U 18, B 11); (B 43, U 22, B 24); (B 38, B 8, B 48); (B 35, U 24, U 41); (U 24, B 30, U 34);
   (U 8, U 48, B 30); (B 14, B 43, U 22); (U 41, U 15, B 27); (B 3, B 48, B 46); (U 1, B 40, B 18);
   (U 14, U 14, B 28); (U 26, U 12, U 16); (U 9, B 16, U 10); (U 36, B 3, U 32); (U 37, B 19, B 13);
   (B 34, B 30, U 40); (B 19, U 32, B 45); (B 44, U 12, U 11); (B 17, U 11, B 49); (B 47, U 20, U 44);
   (U 41, B 22, B 38); (B 15, U 13, U 7); (U 46, U 47, B 13); (U 18, B 2, U 21); (U 30, B 10, U 43);
   (B 12, U 23, U 2); (U 29, U 25, U 35); (U 42, U 5, B 27); (U 9, U 39, B 35); (U 24, B 26, U 34);
   (U 47, U 28, B 35); (U 45, U 27, B 8); (U 18, B 27, U 38); (U 42, B 4, B 3); (U 3, B 18, U 8); (B 4, U 3, U 19)]
  [(T 4, U 9, T 8); (U 21, U 43, U 40); (U 18, T 21, T 47); (T 11, U 1, U 44); (T 28, U 19, T 17); (U 7, T 30, T 34);
   (U 36, T 46, U 37); (T 24, U 36, T 30); (T 10, U 19, T 7); (U 24, U 9, U 6); (U 48, T 24, T 48);
   (T 33, T 17, U 18); (U 45, U 24, U 48); (T 22, U 44, U 23); (T 47, T 37, U 25); (T 45, U 44, T 42);
   (U 1, U 34, U 1); (U 46, T 22, U 35); (U 48, U 34, T 43); (T 27, T 6, T 34); (U 21, T 2, T 27);
   (T 34, U 37, T 27); (U 42, U 31, U 44); (T 47, U 26, U 12); (T 44, U 16, U 38); (U 22, U 23, U 4);
   (U 38, T 23, T 17); (U 31, U 28, T 23); (U 32, T 28, U 20); (U 16, U 15, T 42); (T 37, T 34, U 24);
   (U 5, T 33, U 45); (U 11, U 39, T 43); (U 20, T 31, U 12); (U 42, U 45, U 38); (U 7, T 48, U 48);
   (U 26, T 37, T 36); (U 47, T 44, U 22); (U 12, U 36, T 5); (T 37, T 44, T 35); (U 4, T 26, U 4);
   (U 29, U 27, T 17); (U 37, U 15, T 49); (U 9, T 40, U 6); (T 14, U 5, T 41); (T 48, U 44, T 22);
   (T 35, T 3, U 48); (U 32, U 12, U 2); (U 1, U 33, U 30); (T 45, T 0, U 33); (T 29, T 2, T 6); (T 9, T 48, U 38);
   (U 28, T 3, T 3); (T 39, U 29, U 16); (T 16, U 6, T 10); (T 31, T 11, U 28); (U 41, U 49, T 1); (T 1, T 2, T 35);
   (U 37, U 3, U 42); (T 29, U 28, U 2); (U 21, T 7, T 47); (U 6, U 36, U 6); (T 19, U 6, T 26); (T 14, U 47, T 49);
   (U 31, U 18, T 11); (T 43, U 22, T 24); (T 38, T 8, T 48); (T 35, U 24, U 41); (U 24, T 30, U 34);
   (U 8, U 48, T 30); (T 14, T 43, U 22); (U 41, U 15, T 27); (T 3, T 48, T 46); (U 1, T 40, T 18);
   (U 14, U 14, T 28); (U 26, U 12, U 16); (U 9, T 16, U 10); (U 36, T 3, U 32); (U 37, T 19, T 13);
   (T 34, T 30, U 40); (T 19, U 32, T 45); (T 44, U 12, U 11); (T 17, U 11, T 49); (T 47, U 20, U 44);
   (U 41, T 22, T 38); (T 15, U 13, U 7); (U 46, U 47, T 13); (U 18, T 2, U 21); (U 30, T 10, U 43);
   (T 12, U 23, U 2); (U 29, U 25, U 35); (U 42, U 5, T 27); (U 9, U 39, T 35); (U 24, T 26, U 34);
   (U 47, U 28, T 35); (U 45, U 27, T 8); (U 18, T 27, U 38); (U 42, T 4, T 3); (U 3, T 18, U 8); (T 4, U 3, U 19)] = true.
Proof. vm_compute; reflexivity. Qed.

Example iso_195 : found
  [(B 1, U 24, U 8); (U 4, B 17, B 10); (U 20, B 18, B 42); (B 33, U 47, U 40); (U 40, U 44, B 28);
   (U 11, B 42, U 15); (B 4, B 20, B 36); (U 40, B 30, U 19); (B 24, U 42, U 18); (U 41, B 26, B 49);
   (B 13, U 16, U 39); (B 39, U 49, U 32); (B 35, B 47, U 34); (B 44, B 39, B 5); (B 23, B 28, B 13);
   (B 29, U 2, U 17); (B 12, U 13, B 35); (B 30, B 48, B 1); (U 37, B 9, U 30); (B 27, U 20, U 12);
   (B 20, B 31, B 7); (U 38, B 13, B 6); (B 33, U 42, U 24); (U 14, B 43, U 6); (B 17, B 31, U 27);
   (B 1, B 43, B 37); (B 36, U 20, B 4); (B 9, U 28, B 38); (B 25, B 39, U 25); (B 39, U 43, B 14);
   (U 33, U 32, U 1); (U 27, B 40, B 10); (B 45, U 17, U 37); (U 46, B 1, U 42); (U 14, B 3, U 18);
   (U 7, U 25, U 36); (U 20, U 20, U 7); (B 32, B 47, B 15); (B 36, B 40, U 43); (B 45, B 16, B 11);
   (B 2, U 11, B 40); (B 43, B 49, U 21); (B 19, B 40, B 32); (U 12, B 44, B 47); (U 35, B 39, B 24);
   (B 3, U 36, U 26); (B 25, B 2, B 11); (U 8, U 20, U 37); (B 13, U 0, B 30); (B 35, B 35, B 23); (B 4, U 7, U 14);
   (U 33, B 5, U 11); (B 36, B 8, B 40); (U 17, U 43, B 26); (B 38, B 44, U 4); (B 35, B 24, U 34);
   (U 28, U 29, U 34); (U 24, U 23, U 14); (B 25, B 35, B 33); (B 32, B 30, B 11); (B 28, U 19, B 30);
   (B 16, U 33, B 26); (B 20, B 8, B 25); (U 19, U 4, U 14); (U 17, U 33, B 39); (B 12, U 40, B 23);
   (B 42, B 41, U 21); (B 1, U 40, B 45); (U 33, U 8, U 45); (B 24, B 17, U 38); (B 20, U 36, B 45);
   (B 36, B 27, B 19); (U 5, B 25, B 8); (B 19, U 47, B 36); (U 7, U 31, B 3); (U 27, B 2, B 47); (U 35, U 43, B 46);
   (U 28, U 17, B 0); (U 3, B 26, B 19); (U 43, U 35, U 33); (U 17, U 34, U 15); (B 13, B 26, B 38);
   (B 13, B 32, U 0); (U 49, B 29, B 42); (B 46, B 23, U 42); (U 17, U 3, B 44); (U 5, U 35, U 28);
   (U 7, U 10, U 25); (U 4, U 43, U 39); (U 46, U 11, B 40); (U 49, U 38, B 47); (U 13, B 30, U 2);
   (B 32, B 43, U 42); (U 46, B 10, U 7); (U 35, B 30, U 0); (U 6, U 30, U 49); (U 30, B 10, U 44);
   (U 39, U 48, U 46); (B 33, U 42, U 11); (U 26, U 2, U 41)]
  [(T 1, U 24, U 8); (U 4, T 17, T 10); (U 20, T 18, T 42); (T 33, U 47, U 40); (U 40, U 44, T 28);
   (U 11, T 42, U 15); (T 4, T 20, T 36); (U 40, T 30, U 19); (T 24, U 42, U 18); (U 41, T 26, T 49);
   (T 13, U 16, U 39); (T 39, U 49, U 32); (T 35, T 47, U 34); (T 44, T 39, T 5); (T 23, T 28, T 13);
   (T 29, U 2, U 17); (T 12, U 13, T 35); (T 30, T 48, T 1); (U 37, T 9, U 30); (T 27, U 20, U 12);
   (T 20, T 31, T 7); (U 38, T 13, T 6); (T 33, U 42, U 24); (U 14, T 43, U 6); (T 17, T 31, U 27);
   (T 1, T 43, T 37); (T 36, U 20, T 4); (T 9, U 28, T 38); (T 25, T 39, U 25); (T 39, U 43, T 14);
   (U 33, U 32, U 1); (U 27, T 40, T 10); (T 45, U 17, U 37); (U 46, T 1, U 42); (U 14, T 3, U 18);
   (U 7, U 25, U 36); (U 20, U 20, U 7); (T 32, T 47, T 15); (T 36, T 40, U 43); (T 45, T 16, T 11);
   (T 2, U 11, T 40); (T 43, T 49, U 21); (T 19, T 40, T 32); (U 12, T 44, T 47); (U 35, T 39, T 24);
   (T 3, U 36, U 26); (T 25, T 2, T 11); (U 8, U 20, U 37); (T 13, U 0, T 30); (T 35, T 35, T 23); (T 4, U 7, U 14);
   (U 33, T 5, U 11); (T 36, T 8, T 40); (U 17, U 43, T 26); (T 38, T 44, U 4); (T 35, T 24, U 34);
   (U 28, U 29, U 34); (U 24, U 23, U 14); (T 25, T 35, T 33); (T 32, T 30, T 11); (T 28, U 19, T 30);
   (T 16, U 33, T 26); (T 20, T 8, T 25); (U 19, U 4, U 14); (U 17, U 33, T 39); (T 12, U 40, T 23);
   (T 42, T 41, U 21); (T 1, U 40, T 45); (U 33, U 8, U 45); (T 24, T 17, U 38); (T 20, U 36, T 45);
   (T 36, T 27, T 19); (U 5, T 25, T 8); (T 19, U 47, T 36); (U 7, U 31, T 3); (U 27, T 2, T 47); (U 35, U 43, T 46);
   (U 28, U 17, T 0); (U 3, T 26, T 19); (U 43, U 35, U 33); (U 17, U 34, U 15); (T 13, T 26, T 38);
   (T 13, T 32, U 0); (U 49, T 29, T 42); (T 46, T 23, U 42); (U 17, U 3, T 44); (U 5, U 35, U 28);
   (U 7, U 10, U 25); (U 4, U 43, U 39); (U 46, U 11, T 40); (U 49, U 38, T 47); (U 13, T 30, U 2);
   (T 32, T 43, U 42); (U 46, T 10, U 7); (U 35, T 30, U 0); (U 6, U 30, U 49); (U 30, T 10, U 44);
   (U 39, U 48, U 46); (T 33, U 42, U 11); (U 26, U 2, U 41)] = true.
Proof. vm_compute; reflexivity. Qed.

Example iso_196 : found
  [(U 2, B 45, U 47); (U 39, B 11, B 24); (B 41, B 4, U 20); (U 27, U 17, B 19); (U 15, B 43, U 45);
   (U 32, B 10, U 31); (B 16, B 39, U 20); (B 10, B 26, U 38); (U 20, U 19, U 1); (B 41, B 22, U 13);
   (U 39, U 21, U 19); (U 48, U 33, B 45); (U 21, B 43, U 10); (U 47, U 13, U 24); (B 33, B 27, U 31);
   (U 14, B 9, B 5); (B 22, B 6, B 37); (U 0, U 2, U 29); (U 31, U 30, B 28); (U 11, U 36, U 28); (B 33, U 18, U 43);
   (B 36, B 28, U 1); (U 39, B 48, B 42); (U 32, U 39, U 19); (B 15, U 6, B 2); (U 37, U 43, B 35); (U 7, U 23, U 3);
   (B 8, B 35, U 36); (U 20, B 37, B 13); (U 3, B 13, U 48); (U 4, B 8, U 7); (U 33, B 31, B 3); (U 30, U 46, U 41);
   (U 33, B 38, U 17); (U 42, U 26, B 26); (B 37, U 46, U 3); (B 0, U 43, U 30); (U 8, B 9, B 45);
   (B 38, U 45, B 39); (B 20, U 40, U 15); (B 8, B 12, B 40); (U 19, U 4, U 2); (B 14, B 17, B 32);
   (U 42, U 22, B 18); (B 33, B 40, U 33); (U 42, U 9, B 14); (B 13, B 8, B 48); (B 12, B 39, U 37);
   (B 27, B 37, B 13); (U 26, B 42, U 23); (U 26, B 43, B 12); (U 41, U 44, B 25); (B 13, U 40, B 32);
   (U 27, B 42, B 20); (U 45, B 43, U 43); (U 7, U 10, U 39); (B 38, B 49, U 34); (B 23, U 22, U 46);
   (U 10, B 40, B 0); (B 41, U 47, U 17); (U 46, U 27, U 23); (B 32, B 19, B 9); (U 31, B 0, B 0);
   (U 45, B 11, B 28); (U 30, U 32, U 1); (U 14, B 18, U 4); (U 3, U 2, U 44); (B 34, U 43, B 33);
   (U 20, U 29, B 23); (U 10, B 25, B 47); (B 34, B 44, U 42); (U 49, U 39, U 7); (U 47, U 44, B 25);
   (U 9, B 6, U 20); (U 32, B 29, B 48); (U 31, B 14, B 35); (U 28, U 35, U 12); (U 28, B 4, U 5);
   (B 48, U 26, U 26); (U 15, U 11, B 46); (B 32, B 26, B 35); (B 19, B 49, U 12); (U 41, B 46, U 24);
   (B 41, U 46, B 31); (B 48, U 31, U 40); (U 44, U 5, B 12); (U 17, U 34, U 49); (B 21, B 3, B 49);
   (U 2, U 16, U 9); (B 2, U 46, B 16); (B 4, B 40, B 38); (U 48, U 33, U 2); (B 34, U 34, U 32); (U 6, B 37, U 45);
   (U 48, U 0, U 4); (U 25, U 24, U 48); (B 37, B 44, B 20); (B 30, U 1, U 22); (B 25, U 7, B 37); (B 25, U 45, B 27)]
  [(U 2, T 45, U 47); (U 39, T 11, T 24); (T 41, T 4, U 20); (U 27, U 17, T 19); (U 15, T 43, U 45);
   (U 32, T 10, U 31); (T 16, T 39, U 20); (T 10, T 26, U 38); (U 20, U 19, U 1); (T 41, T 22, U 13);
   (U 39, U 21, U 19); (U 48, U 33, T 45); (U 21, T 43, U 10); (U 47, U 13, U 24); (T 33, T 27, U 31);
   (U 14, T 9, T 5); (T 22, T 6, T 37); (U 0, U 2, U 29); (U 31, U 30, T 28); (U 11, U 36, U 28); (T 33, U 18, U 43);
   (T 36, T 28, U 1); (U 39, T 48, T 42); (U 32, U 39, U 19); (T 15, U 6, T 2); (U 37, U 43, T 35); (U 7, U 23, U 3);
   (T 8, T 35, U 36); (U 20, T 37, T 13); (U 3, T 13, U 48); (U 4, T 8, U 7); (U 33, T 31, T 3); (U 30, U 46, U 41);
   (U 33, T 38, U 17); (U 42, U 26, T 26); (T 37, U 46, U 3); (T 0, U 43, U 30); (U 8, T 9, T 45);
   (T 38, U 45, T 39); (T 20, U 40, U 15); (T 8, T 12, T 40); (U 19, U 4, U 2); (T 14, T 17, T 32);
   (U 42, U 22, T 18); (T 33, T 40, U 33); (U 42, U 9, T 14); (T 13, T 8, T 48); (T 12, T 39, U 37);
   (T 27, T 37, T 13); (U 26, T 42, U 23); (U 26, T 43, T 12); (U 41, U 44, T 25); (T 13, U 40, T 32);
   (U 27, T 42, T 20); (U 45, T 43, U 43); (U 7, U 10, U 39); (T 38, T 49, U 34); (T 23, U 22, U 46);
   (U 10, T 40, T 0); (T 41, U 47, U 17); (U 46, U 27, U 23); (T 32, T 19, T 9); (U 31, T 0, T 0);
   (U 45, T 11, T 28); (U 30, U 32, U 1); (U 14, T 18, U 4); (U 3, U 2, U 44); (T 34, U 43, T 33);
   (U 20, U 29, T 23); (U 10, T 25, T 47); (T 34, T 44, U 42); (U 49, U 39, U 7); (U 47, U 44, T 25);
   (U 9, T 6, U 20); (U 32, T 29, T 48); (U 31, T 14, T 35); (U 28, U 35, U 12); (U 28, T 4, U 5);
   (T 48, U 26, U 26); (U 15, U 11, T 46); (T 32, T 26, T 35); (T 19, T 49, U 12); (U 41, T 46, U 24);
   (T 41, U 46, T 31); (T 48, U 31, U 40); (U 44, U 5, T 12); (U 17, U 34, U 49); (T 21, T 3, T 49);
   (U 2, U 16, U 9); (T 2, U 46, T 16); (T 4, T 40, T 38); (U 48, U 33, U 2); (T 34, U 34, U 32); (U 6, T 37, U 45);
   (U 48, U 0, U 4); (U 25, U 24, U 48); (T 37, T 44, T 20); (T 30, U 1, U 22); (T 25, U 7, T 37); (T 25, U 45, T 27)] = true.
Proof. vm_compute; reflexivity. Qed.

Example iso_197 : found
  [(B 38, B 8, U 29); (U 43, U 34, U 11); (U 8, U 3, B 1); (U 44, B 19, U 7); (B 38, B 32, B 30); (B 0, U 21, U 13);
   (U 11, B 9, U 7); (U 32, U 18, U 4); (B 42, U 41, B 46); (B 42, B 14, U 20); (B 29, U 34, B 15); (B 42, U 7, U 6);
   (U 49, B 19, U 47); (U 12, B 31, B 32); (U 47, B 14, B 33); (B 25, U 23, B 2); (U 19, U 3, B 2); (B 21, U 7, U 1);
   (B 49, U 36, U 41); (B 24, B 32, B 49); (U 24, B 14, U 16); (U 5, U 18, B 46); (U 46, U 28, B 6);
   (B 28, U 12, B 47); (B 25, U 47, B 27); (B 26, U 14, U 20); (U 41, U 20, B 15); (U 29, B 29, U 29);
   (B 20, B 47, B 8); (B 26, U 4, U 26); (U 26, B 1, U 11); (U 9, U 15, B 36); (B 10, B 33, U 37); (U 10, B 0, B 11);
   (B 6, U 35, U 29); (U 24, B 1, B 4); (B 27, U 7, B 16); (B 3, B 42, U 20); (B 11, U 40, B 16); (B 8, U 19, U 28);
   (B 13, U 29, B 29); (U 32, B 21, U 14); (B 26, B 7, B 9); (B 49, B 25, B 2); (U 4, U 4, U 12); (B 4, B 32, B 21);
   (B 45, B 32, B 18); (B 15, U 18, U 49); (U 39, B 7, U 5); (U 38, B 0, U 27); (U 0, B 15, U 37);
   (B 35, U 36, U 20); (U 11, U 2, B 29); (U 39, B 29, B 31); (B 46, B 36, B 20); (U 30, B 6, B 48);
   (U 40, B 30, B 49); (U 31, B 43, U 32); (B 44, U 7, U 29); (U 30, U 35, B 21); (B 4, B 27, U 3);
   (B 18, U 13, B 26); (B 29, U 29, B 30); (B 0, B 46, U 49); (U 14, B 28, U 25); (U 35, B 2, B 18);
   (U 17, U 4, B 34); (B 34, U 18, B 47); (B 35, B 21, B 3); (B 21, U 47, B 10); (U 25, U 11, B 28);
   (U 16, U 27, B 34); (B 30, U 43, B 32); (B 12, B 22, U 33); (B 10, B 4, U 30); (U 7, B 29, B 31);
   (B 15, U 27, B 35); (B 47, U 43, U 18); (B 14, B 29, U 40); (B 39, B 0, B 48); (U 21, B 34, B 36);
   (U 14, B 1, U 30); (B 11, B 14, B 2); (B 1, U 40, B 2); (B 25, B 38, B 16); (U 17, U 4, B 3); (B 31, B 20, B 30);
   (U 21, B 11, B 6); (B 20, U 26, U 7); (B 9, B 0, U 7); (U 21, U 33, B 27); (B 41, U 0, U 38); (B 24, B 3, B 43);
   (B 24, B 3, B 26); (B 25, B 33, U 10); (U 10, U 12, B 16); (B 17, B 29, U 20); (U 36, U 30, B 33);
   (U 11, U 13, B 21); (U 1, U 22, B 18)]
  [(T 38, T 8, U 29); (U 43, U 34, U 11); (U 8, U 3, T 1); (U 44, T 19, U 7); (T 38, T 32, T 30); (T 0, U 21, U 13);
   (U 11, T 9, U 7); (U 32, U 18, U 4); (T 42, U 41, T 46); (T 42, T 14, U 20); (T 29, U 34, T 15); (T 42, U 7, U 6);
   (U 49, T 19, U 47); (U 12, T 31, T 32); (U 47, T 14, T 33); (T 25, U 23, T 2); (U 19, U 3, T 2); (T 21, U 7, U 1);
   (T 49, U 36, U 41); (T 24, T 32, T 49); (U 24, T 14, U 16); (U 5, U 18, T 46); (U 46, U 28, T 6);
   (T 28, U 12, T 47); (T 25, U 47, T 27); (T 26, U 14, U 20); (U 41, U 20, T 15); (U 29, T 29, U 29);
   (T 20, T 47, T 8); (T 26, U 4, U 26); (U 26, T 1, U 11); (U 9, U 15, T 36); (T 10, T 33, U 37); (U 10, T 0, T 11);
   (T 6, U 35, U 29); (U 24, T 1, T 4); (T 27, U 7, T 16); (T 3, T 42, U 20); (T 11, U 40, T 16); (T 8, U 19, U 28);
   (T 13, U 29, T 29); (U 32, T 21, U 14); (T 26, T 7, T 9); (T 49, T 25, T 2); (U 4, U 4, U 12); (T 4, T 32, T 21);
   (T 45, T 32, T 18); (T 15, U 18, U 49); (U 39, T 7, U 5); (U 38, T 0, U 27); (U 0, T 15, U 37);
   (T 35, U 36, U 20); (U 11, U 2, T 29); (U 39, T 29, T 31); (T 46, T 36, T 20); (U 30, T 6, T 48);
   (U 40, T 30, T 49); (U 31, T 43, U 32); (T 44, U 7, U 29); (U 30, U 35, T 21); (T 4, T 27, U 3);
   (T 18, U 13, T 26); (T 29, U 29, T 30); (T 0, T 46, U 49); (U 14, T 28, U 25); (U 35, T 2, T 18);
   (U 17, U 4, T 34); (T 34, U 18, T 47); (T 35, T 21, T 3); (T 21, U 47, T 10); (U 25, U 11, T 28);
   (U 16, U 27, T 34); (T 30, U 43, T 32); (T 12, T 22, U 33); (T 10, T 4, U 30); (U 7, T 29, T 31);
   (T 15, U 27, T 35); (T 47, U 43, U 18); (T 14, T 29, U 40); (T 39, T 0, T 48); (U 21, T 34, T 36);
   (U 14, T 1, U 30); (T 11, T 14, T 2); (T 1, U 40, T 2); (T 25, T 38, T 16); (U 17, U 4, T 3); (T 31, T 20, T 30);
   (U 21, T 11, T 6); (T 20, U 26, U 7); (T 9, T 0, U 7); (U 21, U 33, T 27); (T 41, U 0, U 38); (T 24, T 3, T 43);
   (T 24, T 3, T 26); (T 25, T 33, U 10); (U 10, U 12, T 16); (T 17, T 29, U 20); (U 36, U 30, T 33);
   (U 11, U 13, T 21); (U 1, U 22, T 18)] = true.
Proof. vm_compute; reflexivity. Qed.

Example iso_198 : found
  [(U 35, B 21, U 1); (U 45, U 41, B 14); (B 24, B 19, B 48); (B 16, U 23, B 34); (B 0, B 38, B 21);
   (U 46, U 8, B 16); (U 8, U 8, B 33); (B 26, B 35, B 18); (B 12, U 20, U 40); (U 12, B 0, B 23);
   (U 41, B 43, U 11); (B 47, B 5, U 47); (U 20, U 8, B 20); (U 24, U 20, B 32); (U 23, U 32, B 25);
   (U 20, U 49, B 15); (U 10, B 36, U 26); (U 6, U 31, U 48); (U 17, U 44, U 28); (B 21, U 14, U 19);
   (B 17, U 33, U 46); (U 7, U 40, B 21); (B 20, U 29, B 35); (B 11, B 5, B 38); (B 5, B 26, U 19);
   (B 10, B 49, B 28); (U 47, B 13, B 32); (U 18, B 29, U 11); (U 6, B 35, U 49); (B 4, U 34, B 43);
   (U 2, U 25, U 8); (B 16, B 13, B 27); (U 11, B 41, B 15); (B 0, B 42, B 27); (B 16, U 25, B 16);
   (B 20, B 35, B 29); (U 35, U 26, B 40); (B 1, B 16, U 31); (U 31, B 41, B 1); (U 6, U 7, B 43); (U 17, B 9, U 22);
   (U 38, U 26, B 14); (B 40, B 15, B 27); (B 33, B 14, B 41); (U 23, B 27, B 22); (U 24, B 34, B 32);
   (U 46, U 46, B 36); (U 47, B 23, U 13); (U 47, U 11, U 43); (U 41, U 5, U 11); (B 10, U 26, U 36);
   (U 10, U 20, B 38); (U 47, B 19, B 16); (U 47, U 18, B 36); (U 18, U 34, U 0); (B 28, U 6, B 41);
   (U 32, U 11, B 4); (B 7, U 32, B 1); (U 42, B 20, U 37); (U 28, U 26, B 23); (U 2, B 23, B 35); (U 28, B 8, U 23);
   (U 42, B 20, B 8); (B 0, B 9, U 29); (B 43, B 35, U 18); (U 12, U 21, U 38); (B 8, B 41, B 12);
   (B 20, U 29, U 14); (U 27, B 5, U 37); (B 21, B 34, B 2); (B 46, U 40, B 7); (B 0, U 4, B 15); (B 43, B 33, U 36);
   (B 27, U 32, B 13); (B 39, B 21, B 11); (U 44, B 26, U 15); (U 34, U 40, B 7); (B 20, B 42, U 40);
   (B 35, B 45, B 31); (B 44, B 42, B 40); (U 39, U 17, U 25); (U 43, U 8, B 43); (B 28, U 37, B 32);
   (B 46, B 2, U 39); (U 11, B 18, B 5); (B 10, U 28, B 5); (B 12, U 27, U 30); (B 11, B 39, U 46); (U 8, B 46, U 8);
   (U 38, B 11, B 19); (U 16, B 20, B 17); (B 40, B 31, U 35); (B 28, B 8, B 22); (U 1, B 40, B 10);
   (U 45, B 41, U 24); (U 16, B 19, U 33); (B 29, B 27, U 0); (U 47, U 37, B 47); (U 32, B 15, B 16);
   (B 36, B 37, U 38)]
  [(U 35, T 21, U 1); (U 45, U 41, T 14); (T 24, T 19, T 48); (T 16, U 23, T 34); (T 0, T 38, T 21);
   (U 46, U 8, T 16); (U 8, U 8, T 33); (T 26, T 35, T 18); (T 12, U 20, U 40); (U 12, T 0, T 23);
   (U 41, T 43, U 11); (T 47, T 5, U 47); (U 20, U 8, T 20); (U 24, U 20, T 32); (U 23, U 32, T 25);
   (U 20, U 49, T 15); (U 10, T 36, U 26); (U 6, U 31, U 48); (U 17, U 44, U 28); (T 21, U 14, U 19);
   (T 17, U 33, U 46); (U 7, U 40, T 21); (T 20, U 29, T 35); (T 11, T 5, T 38); (T 5, T 26, U 19);
   (T 10, T 49, T 28); (U 47, T 13, T 32); (U 18, T 29, U 11); (U 6, T 35, U 49); (T 4, U 34, T 43);
   (U 2, U 25, U 8); (T 16, T 13, T 27); (U 11, T 41, T 15); (T 0, T 42, T 27); (T 16, U 25, T 16);
   (T 20, T 35, T 29); (U 35, U 26, T 40); (T 1, T 16, U 31); (U 31, T 41, T 1); (U 6, U 7, T 43); (U 17, T 9, U 22);
   (U 38, U 26, T 14); (T 40, T 15, T 27); (T 33, T 14, T 41); (U 23, T 27, T 22); (U 24, T 34, T 32);
   (U 46, U 46, T 36); (U 47, T 23, U 13); (U 47, U 11, U 43); (U 41, U 5, U 11); (T 10, U 26, U 36);
   (U 10, U 20, T 38); (U 47, T 19, T 16); (U 47, U 18, T 36); (U 18, U 34, U 0); (T 28, U 6, T 41);
   (U 32, U 11, T 4); (T 7, U 32, T 1); (U 42, T 20, U 37); (U 28, U 26, T 23); (U 2, T 23, T 35); (U 28, T 8, U 23);
   (U 42, T 20, T 8); (T 0, T 9, U 29); (T 43, T 35, U 18); (U 12, U 21, U 38); (T 8, T 41, T 12);
   (T 20, U 29, U 14); (U 27, T 5, U 37); (T 21, T 34, T 2); (T 46, U 40, T 7); (T 0, U 4, T 15); (T 43, T 33, U 36);
   (T 27, U 32, T 13); (T 39, T 21, T 11); (U 44, T 26, U 15); (U 34, U 40, T 7); (T 20, T 42, U 40);
   (T 35, T 45, T 31); (T 44, T 42, T 40); (U 39, U 17, U 25); (U 43, U 8, T 43); (T 28, U 37, T 32);
   (T 46, T 2, U 39); (U 11, T 18, T 5); (T 10, U 28, T 5); (T 12, U 27, U 30); (T 11, T 39, U 46); (U 8, T 46, U 8);
   (U 38, T 11, T 19); (U 16, T 20, T 17); (T 40, T 31, U 35); (T 28, T 8, T 22); (U 1, T 40, T 10);
   (U 45, T 41, U 24); (U 16, T 19, U 33); (T 29, T 27, U 0); (U 47, U 37, T 47); (U 32, T 15, T 16);
   (T 36, T 37, U 38)] = true.
Proof. vm_compute; reflexivity. Qed.

Example iso_199 : found
  [(B 13, B 9, B 22); (U 32, B 41, B 21); (B 20, B 4, B 2); (B 21, B 21, B 21); (U 3, U 45, U 8); (B 45, U 15, B 12);
   (B 49, B 9, U 36); (B 39, B 36, B 6); (U 19, B 17, B 39); (B 37, B 4, U 14); (B 10, U 46, B 41);
   (U 39, B 1, U 36); (B 30, B 20, U 7); (B 48, B 30, B 26); (U 4, U 26, U 40); (B 1, B 13, B 0); (U 3, U 12, B 41);
   (B 3, B 40, U 3); (U 45, U 30, B 45); (U 13, U 48, B 41); (U 34, U 10, U 45); (U 29, B 5, U 23);
   (U 40, B 31, U 39); (B 38, U 20, B 22); (U 17, U 23, U 0); (U 11, U 46, U 7); (U 13, B 0, U 32);
   (B 10, U 27, B 31); (B 35, B 18, B 25); (U 17, B 1, U 27); (U 29, U 36, U 29); (B 33, U 48, U 28);
   (B 18, B 23, B 20); (U 47, B 1, U 34); (U 4, B 13, B 34); (B 23, B 33, U 32); (B 47, B 44, B 4);
   (U 15, B 39, U 22); (U 36, B 6, U 48); (U 23, B 2, U 48); (B 47, U 41, U 43); (U 10, U 11, B 22);
   (B 6, U 19, U 36); (B 25, B 43, B 46); (U 23, U 36, B 47); (U 25, U 22, U 11); (U 4, U 4, B 48);
   (B 43, B 31, U 0); (B 12, B 44, U 16); (U 26, B 42, U 6); (U 6, U 4, U 35); (B 46, B 19, U 41); (U 16, U 1, U 23);
   (B 5, B 47, U 29); (B 16, B 9, B 34); (B 17, U 6, B 5); (B 0, U 34, B 18); (U 39, U 1, B 23); (B 26, U 3, U 35);
   (B 32, U 18, B 42); (U 39, B 5, B 25); (U 36, U 2, U 13); (B 14, U 29, U 30); (B 10, B 21, B 10);
   (B 0, B 20, U 41); (B 24, B 0, U 3); (U 34, B 4, B 25); (U 24, U 27, U 35); (B 21, U 15, U 8); (U 34, B 37, B 15);
   (U 13, B 49, B 47); (U 26, U 2, U 1); (B 13, U 38, B 40); (B 36, U 24, U 42); (U 2, B 25, U 9);
   (B 18, B 36, U 47); (B 16, B 16, B 4); (U 33, B 11, U 13); (U 46, U 28, U 26); (B 3, U 19, B 4);
   (B 37, U 36, B 2); (U 35, B 41, B 0); (B 4, U 19, U 13); (B 6, B 21, U 46); (B 13, B 32, U 35); (U 16, B 9, B 28);
   (B 36, B 44, U 44); (B 21, B 35, U 3); (B 10, U 3, U 0); (B 15, B 13, B 46); (U 42, B 25, B 38);
   (U 4, B 38, B 31); (U 5, B 45, B 1); (B 4, B 13, B 5); (U 38, B 10, B 13); (U 1, U 15, U 20); (B 20, B 15, B 30);
   (U 1, B 25, U 7); (B 37, U 19, B 12); (B 15, B 14, B 15)]
  [(T 13, T 9, T 22); (U 32, T 41, T 21); (T 20, T 4, T 2); (T 21, T 21, T 21); (U 3, U 45, U 8); (T 45, U 15, T 12);
   (T 49, T 9, U 36); (T 39, T 36, T 6); (U 19, T 17, T 39); (T 37, T 4, U 14); (T 10, U 46, T 41);
   (U 39, T 1, U 36); (T 30, T 20, U 7); (T 48, T 30, T 26); (U 4, U 26, U 40); (T 1, T 13, T 0); (U 3, U 12, T 41);
   (T 3, T 40, U 3); (U 45, U 30, T 45); (U 13, U 48, T 41); (U 34, U 10, U 45); (U 29, T 5, U 23);
   (U 40, T 31, U 39); (T 38, U 20, T 22); (U 17, U 23, U 0); (U 11, U 46, U 7); (U 13, T 0, U 32);
   (T 10, U 27, T 31); (T 35, T 18, T 25); (U 17, T 1, U 27); (U 29, U 36, U 29); (T 33, U 48, U 28);
   (T 18, T 23, T 20); (U 47, T 1, U 34); (U 4, T 13, T 34); (T 23, T 33, U 32); (T 47, T 44, T 4);
   (U 15, T 39, U 22); (U 36, T 6, U 48); (U 23, T 2, U 48); (T 47, U 41, U 43); (U 10, U 11, T 22);
   (T 6, U 19, U 36); (T 25, T 43, T 46); (U 23, U 36, T 47); (U 25, U 22, U 11); (U 4, U 4, T 48);
   (T 43, T 31, U 0); (T 12, T 44, U 16); (U 26, T 42, U 6); (U 6, U 4, U 35); (T 46, T 19, U 41); (U 16, U 1, U 23);
   (T 5, T 47, U 29); (T 16, T 9, T 34); (T 17, U 6, T 5); (T 0, U 34, T 18); (U 39, U 1, T 23); (T 26, U 3, U 35);
   (T 32, U 18, T 42); (U 39, T 5, T 25); (U 36, U 2, U 13); (T 14, U 29, U 30); (T 10, T 21, T 10);
   (T 0, T 20, U 41); (T 24, T 0, U 3); (U 34, T 4, T 25); (U 24, U 27, U 35); (T 21, U 15, U 8); (U 34, T 37, T 15);
   (U 13, T 49, T 47); (U 26, U 2, U 1); (T 13, U 38, T 40); (T 36, U 24, U 42); (U 2, T 25, U 9);
   (T 18, T 36, U 47); (T 16, T 16, T 4); (U 33, T 11, U 13); (U 46, U 28, U 26); (T 3, U 19, T 4);
   (T 37, U 36, T 2); (U 35, T 41, T 0); (T 4, U 19, U 13); (T 6, T 21, U 46); (T 13, T 32, U 35); (U 16, T 9, T 28);
   (T 36, T 44, U 44); (T 21, T 35, U 3); (T 10, U 3, U 0); (T 15, T 13, T 46); (U 42, T 25, T 38);
   (U 4, T 38, T 31); (U 5, T 45, T 1); (T 4, T 13, T 5); (U 38, T 10, T 13); (U 1, U 15, U 20); (T 20, T 15, T 30);
   (U 1, T 25, U 7); (T 37, U 19, T 12); (T 15, T 14, T 15)] = true.
Proof. vm_compute; reflexivity. Qed.

Example iso_200 : found
  [(B 31, B 33, U 9); (B 5, B 22, U 47); (B 47, U 14, B 17); (U 40, U 8, U 28); (U 33, B 7, U 14); (B 8, B 11, U 1);
   (B 32, B 23, U 23); (U 30, B 28, B 10); (U 0, B 41, U 36); (B 0, U 44, U 33); (B 17, B 49, U 28);
   (B 45, B 0, U 20); (B 2, U 27, B 43); (U 30, B 28, U 46); (B 33, B 5, B 26); (B 37, U 7, U 15);
   (B 26, U 25, U 30); (U 25, U 41, U 29); (U 26, B 45, B 35); (B 40, U 33, B 11); (U 47, U 24, U 7);
   (B 11, U 23, U 41); (B 30, U 26, U 33); (U 21, U 0, U 5); (B 13, B 45, B 7); (B 35, B 23, U 23);
   (U 3, U 33, U 36); (U 47, B 41, U 37); (U 45, B 13, U 31); (U 30, B 11, U 0); (B 31, U 24, B 17);
   (B 33, B 36, U 38); (B 11, U 20, U 26); (B 17, U 11, U 23); (B 5, U 10, B 27); (B 42, B 1, U 38);
   (U 46, U 17, U 36); (B 28, U 45, U 42); (U 40, B 24, B 43); (B 49, U 26, B 7); (U 0, U 30, U 8);
   (U 7, B 36, B 45); (B 2, U 25, U 3); (B 7, U 19, B 0); (B 24, B 33, B 28); (B 17, U 46, B 1); (B 15, B 40, U 26);
   (B 24, B 17, U 2); (B 25, U 5, U 29); (B 34, U 14, B 28); (U 44, U 49, U 48); (U 12, U 13, B 12);
   (B 12, U 28, B 4); (B 43, U 2, B 26); (U 20, U 41, U 10); (U 44, U 13, U 29); (B 33, B 31, U 24);
   (U 18, U 25, U 14); (B 0, U 32, B 44); (U 29, U 16, B 18); (B 34, B 43, B 7); (U 28, B 27, U 0);
   (B 15, U 35, B 15); (B 5, B 39, U 17); (U 47, B 20, B 9); (B 28, B 12, B 17); (B 7, U 21, U 23);
   (B 5, U 24, U 40); (U 16, U 7, U 28); (B 31, B 9, B 42); (B 34, B 23, B 12); (U 13, U 31, B 0);
   (B 47, U 18, U 29); (B 8, B 17, U 43); (B 17, U 2, U 31); (B 18, B 24, B 18); (B 19, B 49, B 46);
   (U 14, B 45, U 28); (B 33, B 9, B 31); (U 28, U 37, B 0); (U 2, U 39, B 48); (U 25, U 14, B 9);
   (B 31, U 23, U 32); (B 23, B 40, B 9); (U 7, U 8, U 46); (U 25, B 28, B 1); (B 1, U 31, B 37); (U 40, B 16, U 12);
   (U 46, B 16, B 19); (U 29, B 6, B 27); (U 22, B 20, U 20); (U 14, U 5, B 43); (B 26, U 43, U 16);
   (B 18, U 0, B 23); (B 41, U 35, B 15); (B 33, U 38, B 7); (U 32, B 22, B 20); (U 39, B 39, B 34);
   (U 16, U 21, B 35); (B 10, U 46, B 17)]
  [(T 31, T 33, U 9); (T 5, T 22, U 47); (T 47, U 14, T 17); (U 40, U 8, U 28); (U 33, T 7, U 14); (T 8, T 11, U 1);
   (T 32, T 23, U 23); (U 30, T 28, T 10); (U 0, T 41, U 36); (T 0, U 44, U 33); (T 17, T 49, U 28);
   (T 45, T 0, U 20); (T 2, U 27, T 43); (U 30, T 28, U 46); (T 33, T 5, T 26); (T 37, U 7, U 15);
   (T 26, U 25, U 30); (U 25, U 41, U 29); (U 26, T 45, T 35); (T 40, U 33, T 11); (U 47, U 24, U 7);
   (T 11, U 23, U 41); (T 30, U 26, U 33); (U 21, U 0, U 5); (T 13, T 45, T 7); (T 35, T 23, U 23);
   (U 3, U 33, U 36); (U 47, T 41, U 37); (U 45, T 13, U 31); (U 30, T 11, U 0); (T 31, U 24, T 17);
   (T 33, T 36, U 38); (T 11, U 20, U 26); (T 17, U 11, U 23); (T 5, U 10, T 27); (T 42, T 1, U 38);
   (U 46, U 17, U 36); (T 28, U 45, U 42); (U 40, T 24, T 43); (T 49, U 26, T 7); (U 0, U 30, U 8);
   (U 7, T 36, T 45); (T 2, U 25, U 3); (T 7, U 19, T 0); (T 24, T 33, T 28); (T 17, U 46, T 1); (T 15, T 40, U 26);
   (T 24, T 17, U 2); (T 25, U 5, U 29); (T 34, U 14, T 28); (U 44, U 49, U 48); (U 12, U 13, T 12);
   (T 12, U 28, T 4); (T 43, U 2, T 26); (U 20, U 41, U 10); (U 44, U 13, U 29); (T 33, T 31, U 24);
   (U 18, U 25, U 14); (T 0, U 32, T 44); (U 29, U 16, T 18); (T 34, T 43, T 7); (U 28, T 27, U 0);
   (T 15, U 35, T 15); (T 5, T 39, U 17); (U 47, T 20, T 9); (T 28, T 12, T 17); (T 7, U 21, U 23);
   (T 5, U 24, U 40); (U 16, U 7, U 28); (T 31, T 9, T 42); (T 34, T 23, T 12); (U 13, U 31, T 0);
   (T 47, U 18, U 29); (T 8, T 17, U 43); (T 17, U 2, U 31); (T 18, T 24, T 18); (T 19, T 49, T 46);
   (U 14, T 45, U 28); (T 33, T 9, T 31); (U 28, U 37, T 0); (U 2, U 39, T 48); (U 25, U 14, T 9);
   (T 31, U 23, U 32); (T 23, T 40, T 9); (U 7, U 8, U 46); (U 25, T 28, T 1); (T 1, U 31, T 37); (U 40, T 16, U 12);
   (U 46, T 16, T 19); (U 29, T 6, T 27); (U 22, T 20, U 20); (U 14, U 5, T 43); (T 26, U 43, U 16);
   (T 18, U 0, T 23); (T 41, U 35, T 15); (T 33, U 38, T 7); (U 32, T 22, T 20); (U 39, T 39, T 34);
   (U 16, U 21, T 35); (T 10, U 46, T 17)] = true.
Proof. vm_compute; reflexivity. Qed.

