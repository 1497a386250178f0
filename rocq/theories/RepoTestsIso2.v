(** tests/iso.rs, tests iso_051 to iso_100, written by a script from the test's text. *)
From Coq Require Import NArith List.
Import ListNotations.
From Verif Require Import RepoTestRun.
Open Scope N_scope.

Example iso_051 : found
  [(U 5, U 3, U 2); (B 1, U 2, U 4); (U 4, U 2, B 2); (U 3, B 1, U 5); (U 0, B 0, B 2); (B 1, U 3, B 2);
   (U 0, U 5, B 1); (U 1, B 0, U 3); (B 1, B 1, B 2); (B 2, U 0, U 4)]
  [(U 5, U 3, U 2); (T 1, U 2, U 4); (U 4, U 2, T 2); (U 3, T 1, U 5); (U 0, T 0, T 2); (T 1, U 3, T 2);
   (U 0, U 5, T 1); (U 1, T 0, U 3); (T 1, T 1, T 2); (T 2, U 0, U 4)] = true.
Proof. vm_compute; reflexivity. Qed.

Example iso_052 : found
  [(B 0, U 6, B 1); (U 1, U 0, U 5); (U 6, B 2, U 2); (U 0, U 6, B 2); (B 2, U 2, U 1); (U 6, U 5, U 6);
   (U 4, U 1, U 3); (B 0, U 0, B 2); (B 1, B 0, U 2); (U 2, B 1, U 5)]
  [(T 0, U 6, T 1); (U 1, U 0, U 5); (U 6, T 2, U 2); (U 0, U 6, T 2); (T 2, U 2, U 1); (U 6, U 5, U 6);
   (U 4, U 1, U 3); (T 0, U 0, T 2); (T 1, T 0, U 2); (U 2, T 1, U 5)] = true.
Proof. vm_compute; reflexivity. Qed.

Example iso_053 : found
  [(B 2, U 0, B 1); (B 1, U 0, U 4); (U 2, U 6, U 3); (U 0, U 2, U 6); (U 2, U 2, B 1); (B 0, U 4, U 1);
   (B 1, U 5, B 1); (B 0, U 2, U 0); (U 1, U 3, U 4); (U 3, U 0, U 1)]
  [(T 2, U 0, T 1); (T 1, U 0, U 4); (U 2, U 6, U 3); (U 0, U 2, U 6); (U 2, U 2, T 1); (T 0, U 4, U 1);
   (T 1, U 5, T 1); (T 0, U 2, U 0); (U 1, U 3, U 4); (U 3, U 0, U 1)] = true.
Proof. vm_compute; reflexivity. Qed.

Example iso_054 : found
  [(U 4, U 0, B 1); (U 3, B 2, U 5); (U 3, B 1, U 6); (U 4, B 0, U 2); (U 6, U 2, U 0); (U 3, U 5, U 1);
   (U 0, U 3, U 5); (U 5, U 1, U 1); (U 3, U 0, B 1); (B 0, B 0, U 2)]
  [(U 4, U 0, T 1); (U 3, T 2, U 5); (U 3, T 1, U 6); (U 4, T 0, U 2); (U 6, U 2, U 0); (U 3, U 5, U 1);
   (U 0, U 3, U 5); (U 5, U 1, U 1); (U 3, U 0, T 1); (T 0, T 0, U 2)] = true.
Proof. vm_compute; reflexivity. Qed.

Example iso_055 : found
  [(B 1, B 0, U 0); (U 5, U 0, U 2); (B 0, U 6, U 4); (U 3, U 5, U 2); (U 2, U 2, U 3); (B 0, U 3, U 0);
   (B 0, U 5, U 0); (U 1, B 0, B 2); (U 6, B 1, U 6); (U 0, U 4, U 1)]
  [(T 1, T 0, U 0); (U 5, U 0, U 2); (T 0, U 6, U 4); (U 3, U 5, U 2); (U 2, U 2, U 3); (T 0, U 3, U 0);
   (T 0, U 5, U 0); (U 1, T 0, T 2); (U 6, T 1, U 6); (U 0, U 4, U 1)] = true.
Proof. vm_compute; reflexivity. Qed.

Example iso_056 : found
  [(B 2, U 2, U 5); (U 0, B 1, U 0); (U 6, U 6, B 2); (U 3, U 0, B 2); (B 1, B 1, U 3); (U 1, U 3, B 2);
   (U 1, U 2, U 0); (U 1, B 1, U 6); (U 1, B 0, U 2); (U 2, U 6, B 2)]
  [(T 2, U 2, U 5); (U 0, T 1, U 0); (U 6, U 6, T 2); (U 3, U 0, T 2); (T 1, T 1, U 3); (U 1, U 3, T 2);
   (U 1, U 2, U 0); (U 1, T 1, U 6); (U 1, T 0, U 2); (U 2, U 6, T 2)] = true.
Proof. vm_compute; reflexivity. Qed.

Example iso_057 : found
  [(B 1, U 2, U 0); (U 2, U 4, U 4); (B 2, U 5, U 2); (U 5, U 3, U 2); (U 2, B 2, B 0); (U 6, U 2, U 6);
   (U 0, U 4, U 1); (B 1, U 0, U 3); (B 2, U 2, U 0); (U 0, B 0, U 1)]
  [(T 1, U 2, U 0); (U 2, U 4, U 4); (T 2, U 5, U 2); (U 5, U 3, U 2); (U 2, T 2, T 0); (U 6, U 2, U 6);
   (U 0, U 4, U 1); (T 1, U 0, U 3); (T 2, U 2, U 0); (U 0, T 0, U 1)] = true.
Proof. vm_compute; reflexivity. Qed.

Example iso_058 : found
  [(U 5, U 0, B 2); (U 5, U 3, B 0); (U 0, U 1, B 1); (B 2, U 3, B 2); (B 0, U 2, B 2); (B 1, U 3, U 6);
   (B 1, B 1, U 3); (U 2, U 5, U 3); (U 0, B 0, U 3); (U 1, U 1, U 4)]
  [(U 5, U 0, T 2); (U 5, U 3, T 0); (U 0, U 1, T 1); (T 2, U 3, T 2); (T 0, U 2, T 2); (T 1, U 3, U 6);
   (T 1, T 1, U 3); (U 2, U 5, U 3); (U 0, T 0, U 3); (U 1, U 1, U 4)] = true.
Proof. vm_compute; reflexivity. Qed.

Example iso_059 : found
  [(B 2, B 2, U 6); (U 0, U 5, U 3); (U 6, U 6, B 1); (B 1, B 2, B 2); (B 1, B 1, U 4); (U 3, B 0, U 0);
   (U 2, B 1, U 2); (B 2, U 0, U 1); (B 2, U 3, U 5); (U 6, U 1, U 5)]
  [(T 2, T 2, U 6); (U 0, U 5, U 3); (U 6, U 6, T 1); (T 1, T 2, T 2); (T 1, T 1, U 4); (U 3, T 0, U 0);
   (U 2, T 1, U 2); (T 2, U 0, U 1); (T 2, U 3, U 5); (U 6, U 1, U 5)] = true.
Proof. vm_compute; reflexivity. Qed.

Example iso_060 : found
  [(U 6, U 1, U 2); (U 4, U 2, B 0); (U 5, U 3, U 6); (U 2, U 3, U 0); (U 2, U 5, U 4); (U 2, U 5, U 1);
   (U 2, U 0, B 1); (U 4, B 2, B 1); (U 5, B 2, U 4); (B 1, U 2, B 1)]
  [(U 6, U 1, U 2); (U 4, U 2, T 0); (U 5, U 3, U 6); (U 2, U 3, U 0); (U 2, U 5, U 4); (U 2, U 5, U 1);
   (U 2, U 0, T 1); (U 4, T 2, T 1); (U 5, T 2, U 4); (T 1, U 2, T 1)] = true.
Proof. vm_compute; reflexivity. Qed.

Example iso_061 : found
  [(B 2, B 0, U 2); (B 2, U 5, U 2); (U 2, U 1, U 2); (U 0, U 0, U 0); (B 0, U 1, B 1); (U 6, U 2, B 1);
   (U 3, U 6, B 2); (U 6, U 4, U 4); (U 0, U 3, B 2); (B 1, U 2, B 1)]
  [(T 2, T 0, U 2); (T 2, U 5, U 2); (U 2, U 1, U 2); (U 0, U 0, U 0); (T 0, U 1, T 1); (U 6, U 2, T 1);
   (U 3, U 6, T 2); (U 6, U 4, U 4); (U 0, U 3, T 2); (T 1, U 2, T 1)] = true.
Proof. vm_compute; reflexivity. Qed.

Example iso_062 : found
  [(U 0, U 2, U 2); (U 1, U 2, U 1); (B 1, U 5, B 0); (B 1, B 0, U 5); (B 0, B 0, B 0); (U 0, U 1, B 0);
   (U 1, U 4, U 4); (U 6, U 3, U 4); (U 6, U 6, U 1); (B 0, U 3, B 2)]
  [(U 0, U 2, U 2); (U 1, U 2, U 1); (T 1, U 5, T 0); (T 1, T 0, U 5); (T 0, T 0, T 0); (U 0, U 1, T 0);
   (U 1, U 4, U 4); (U 6, U 3, U 4); (U 6, U 6, U 1); (T 0, U 3, T 2)] = true.
Proof. vm_compute; reflexivity. Qed.

Example iso_063 : found
  [(U 3, U 2, U 1); (U 1, B 0, U 0); (B 0, U 5, U 2); (B 2, B 2, U 4); (B 1, U 3, U 1); (U 2, U 2, U 5);
   (B 1, U 2, U 1); (U 3, U 4, U 5); (U 5, U 2, B 2); (U 0, U 0, U 2)]
  [(U 3, U 2, U 1); (U 1, T 0, U 0); (T 0, U 5, U 2); (T 2, T 2, U 4); (T 1, U 3, U 1); (U 2, U 2, U 5);
   (T 1, U 2, U 1); (U 3, U 4, U 5); (U 5, U 2, T 2); (U 0, U 0, U 2)] = true.
Proof. vm_compute; reflexivity. Qed.

Example iso_064 : found
  [(U 6, B 2, U 2); (U 3, B 1, U 6); (B 1, B 1, U 1); (U 6, B 1, B 1); (U 5, U 1, U 2); (B 2, U 0, U 0);
   (U 5, U 5, U 2); (U 5, U 6, U 2); (U 2, U 0, U 3); (U 3, U 4, U 0)]
  [(U 6, T 2, U 2); (U 3, T 1, U 6); (T 1, T 1, U 1); (U 6, T 1, T 1); (U 5, U 1, U 2); (T 2, U 0, U 0);
   (U 5, U 5, U 2); (U 5, U 6, U 2); (U 2, U 0, U 3); (U 3, U 4, U 0)] = true.
Proof. vm_compute; reflexivity. Qed.

Example iso_065 : found
  [(U 6, B 1, U 0); (U 5, U 5, U 6); (U 5, U 0, U 0); (U 4, B 2, U 6); (U 3, B 1, U 6); (U 3, U 4, B 2);
   (U 6, U 1, U 4); (U 5, U 1, U 3); (U 3, U 1, B 1); (U 6, U 1, U 2)]
  [(U 6, T 1, U 0); (U 5, U 5, U 6); (U 5, U 0, U 0); (U 4, T 2, U 6); (U 3, T 1, U 6); (U 3, U 4, T 2);
   (U 6, U 1, U 4); (U 5, U 1, U 3); (U 3, U 1, T 1); (U 6, U 1, U 2)] = true.
Proof. vm_compute; reflexivity. Qed.

Example iso_066 : found
  [(U 4, U 1, B 2); (U 5, U 3, U 0); (B 2, U 0, U 2); (U 1, U 1, U 2); (B 0, B 0, U 3); (U 1, B 0, B 2);
   (U 4, U 3, U 0); (U 4, U 2, U 2); (U 2, U 3, U 2); (B 0, B 1, B 2)]
  [(U 4, U 1, T 2); (U 5, U 3, U 0); (T 2, U 0, U 2); (U 1, U 1, U 2); (T 0, T 0, U 3); (U 1, T 0, T 2);
   (U 4, U 3, U 0); (U 4, U 2, U 2); (U 2, U 3, U 2); (T 0, T 1, T 2)] = true.
Proof. vm_compute; reflexivity. Qed.

Example iso_067 : found
  [(U 0, U 1, U 6); (U 4, U 6, U 5); (U 5, U 1, U 0); (U 0, B 2, U 5); (U 3, U 0, B 0); (B 0, U 5, U 1);
   (U 2, B 2, U 2); (U 3, B 2, U 2); (U 2, B 0, B 2); (B 1, U 5, U 0)]
  [(U 0, U 1, U 6); (U 4, U 6, U 5); (U 5, U 1, U 0); (U 0, T 2, U 5); (U 3, U 0, T 0); (T 0, U 5, U 1);
   (U 2, T 2, U 2); (U 3, T 2, U 2); (U 2, T 0, T 2); (T 1, U 5, U 0)] = true.
Proof. vm_compute; reflexivity. Qed.

Example iso_068 : found
  [(U 6, U 1, B 1); (U 5, B 1, B 1); (U 0, U 2, U 6); (U 6, B 1, U 2); (U 4, U 5, B 2); (B 1, U 4, U 5);
   (U 6, U 5, B 1); (B 0, U 2, B 1); (B 1, U 0, U 6); (U 5, B 2, U 1)]
  [(U 6, U 1, T 1); (U 5, T 1, T 1); (U 0, U 2, U 6); (U 6, T 1, U 2); (U 4, U 5, T 2); (T 1, U 4, U 5);
   (U 6, U 5, T 1); (T 0, U 2, T 1); (T 1, U 0, U 6); (U 5, T 2, U 1)] = true.
Proof. vm_compute; reflexivity. Qed.

Example iso_069 : found
  [(U 6, U 5, B 0); (U 6, U 6, U 3); (U 3, B 0, U 2); (U 1, U 6, U 3); (B 0, U 2, U 6); (U 2, U 1, U 1);
   (U 5, B 1, U 6); (B 2, B 1, U 0); (U 5, B 0, U 6); (B 2, U 2, U 0)]
  [(U 6, U 5, T 0); (U 6, U 6, U 3); (U 3, T 0, U 2); (U 1, U 6, U 3); (T 0, U 2, U 6); (U 2, U 1, U 1);
   (U 5, T 1, U 6); (T 2, T 1, U 0); (U 5, T 0, U 6); (T 2, U 2, U 0)] = true.
Proof. vm_compute; reflexivity. Qed.

Example iso_070 : found
  [(B 1, B 2, U 1); (U 3, B 2, U 4); (U 0, B 0, U 5); (U 2, U 0, U 4); (U 3, U 2, U 3); (U 4, U 1, U 3);
   (U 4, B 1, U 0); (U 1, B 1, U 6); (B 0, B 0, U 1); (B 1, B 0, U 4)]
  [(T 1, T 2, U 1); (U 3, T 2, U 4); (U 0, T 0, U 5); (U 2, U 0, U 4); (U 3, U 2, U 3); (U 4, U 1, U 3);
   (U 4, T 1, U 0); (U 1, T 1, U 6); (T 0, T 0, U 1); (T 1, T 0, U 4)] = true.
Proof. vm_compute; reflexivity. Qed.

Example iso_071 : found
  [(U 5, B 2, B 0); (B 1, U 6, U 0); (B 0, B 0, U 3); (U 0, U 2, B 0); (U 4, U 3, B 2); (U 2, U 5, U 4);
   (B 2, U 4, U 3); (B 0, U 2, B 0); (U 3, U 1, U 0); (U 2, U 6, U 6)]
  [(U 5, T 2, T 0); (T 1, U 6, U 0); (T 0, T 0, U 3); (U 0, U 2, T 0); (U 4, U 3, T 2); (U 2, U 5, U 4);
   (T 2, U 4, U 3); (T 0, U 2, T 0); (U 3, U 1, U 0); (U 2, U 6, U 6)] = true.
Proof. vm_compute; reflexivity. Qed.

Example iso_072 : found
  [(U 0, U 5, B 2); (B 1, U 2, B 2); (U 4, B 2, U 3); (B 1, U 3, B 1); (U 4, U 3, B 2); (B 1, U 2, U 3);
   (B 1, U 5, U 3); (B 0, B 0, U 4); (B 0, U 1, U 0); (U 3, U 6, B 2)]
  [(U 0, U 5, T 2); (T 1, U 2, T 2); (U 4, T 2, U 3); (T 1, U 3, T 1); (U 4, U 3, T 2); (T 1, U 2, U 3);
   (T 1, U 5, U 3); (T 0, T 0, U 4); (T 0, U 1, U 0); (U 3, U 6, T 2)] = true.
Proof. vm_compute; reflexivity. Qed.

Example iso_073 : found
  [(U 1, B 1, B 1); (B 2, U 6, U 6); (B 2, U 6, B 2); (U 2, U 2, U 2); (U 4, B 0, U 4); (B 1, U 6, B 2);
   (B 1, U 5, U 2); (U 5, U 4, B 2); (B 2, U 1, U 5); (U 3, U 4, B 1)]
  [(U 1, T 1, T 1); (T 2, U 6, U 6); (T 2, U 6, T 2); (U 2, U 2, U 2); (U 4, T 0, U 4); (T 1, U 6, T 2);
   (T 1, U 5, U 2); (U 5, U 4, T 2); (T 2, U 1, U 5); (U 3, U 4, T 1)] = true.
Proof. vm_compute; reflexivity. Qed.

Example iso_074 : found
  [(U 5, U 6, U 3); (U 4, B 0, U 3); (U 6, U 4, U 2); (U 2, U 3, B 2); (U 3, U 0, B 2); (U 4, U 6, U 4);
   (U 3, U 4, B 0); (B 2, B 0, U 5); (U 4, U 0, U 1); (U 4, U 1, U 6)]
  [(U 5, U 6, U 3); (U 4, T 0, U 3); (U 6, U 4, U 2); (U 2, U 3, T 2); (U 3, U 0, T 2); (U 4, U 6, U 4);
   (U 3, U 4, T 0); (T 2, T 0, U 5); (U 4, U 0, U 1); (U 4, U 1, U 6)] = true.
Proof. vm_compute; reflexivity. Qed.

Example iso_075 : found
  [(U 6, U 6, U 2); (U 2, B 0, U 5); (U 5, U 6, U 0); (B 0, U 4, U 6); (U 6, U 6, B 2); (U 4, B 2, U 5);
   (U 5, B 2, U 3); (U 0, U 1, U 2); (U 6, U 1, U 6); (B 1, B 2, U 4)]
  [(U 6, U 6, U 2); (U 2, T 0, U 5); (U 5, U 6, U 0); (T 0, U 4, U 6); (U 6, U 6, T 2); (U 4, T 2, U 5);
   (U 5, T 2, U 3); (U 0, U 1, U 2); (U 6, U 1, U 6); (T 1, T 2, U 4)] = true.
Proof. vm_compute; reflexivity. Qed.

Example iso_076 : found
  [(U 2, U 6, U 1); (U 0, U 0, B 0); (U 1, U 4, U 6); (U 1, B 0, U 5); (U 5, B 2, U 2); (U 3, B 1, U 6);
   (U 5, B 1, U 3); (U 3, U 3, B 1); (U 3, U 5, U 2); (U 6, U 2, U 3)]
  [(U 2, U 6, U 1); (U 0, U 0, T 0); (U 1, U 4, U 6); (U 1, T 0, U 5); (U 5, T 2, U 2); (U 3, T 1, U 6);
   (U 5, T 1, U 3); (U 3, U 3, T 1); (U 3, U 5, U 2); (U 6, U 2, U 3)] = true.
Proof. vm_compute; reflexivity. Qed.

Example iso_077 : found
  [(U 5, U 5, U 0); (U 4, U 1, U 6); (U 6, B 0, B 2); (U 3, U 3, U 0); (U 2, B 2, U 1); (U 0, B 0, B 0);
   (B 2, U 5, U 3); (B 2, U 4, B 1); (U 1, U 6, B 2); (U 0, U 4, U 5)]
  [(U 5, U 5, U 0); (U 4, U 1, U 6); (U 6, T 0, T 2); (U 3, U 3, U 0); (U 2, T 2, U 1); (U 0, T 0, T 0);
   (T 2, U 5, U 3); (T 2, U 4, T 1); (U 1, U 6, T 2); (U 0, U 4, U 5)] = true.
Proof. vm_compute; reflexivity. Qed.

Example iso_078 : found
  [(U 3, U 2, U 1); (U 1, U 4, U 6); (U 0, U 2, U 1); (U 5, U 0, B 1); (U 0, U 4, B 1); (B 1, U 4, B 1);
   (U 6, U 3, B 2); (U 1, U 3, U 0); (B 1, U 3, U 3); (U 0, U 1, U 0)]
  [(U 3, U 2, U 1); (U 1, U 4, U 6); (U 0, U 2, U 1); (U 5, U 0, T 1); (U 0, U 4, T 1); (T 1, U 4, T 1);
   (U 6, U 3, T 2); (U 1, U 3, U 0); (T 1, U 3, U 3); (U 0, U 1, U 0)] = true.
Proof. vm_compute; reflexivity. Qed.

Example iso_079 : found
  [(U 3, B 0, B 1); (U 0, U 2, U 0); (U 3, B 1, U 5); (U 5, B 0, U 6); (U 2, U 2, U 4); (U 4, B 2, B 2);
   (U 0, U 5, U 1); (U 2, U 1, U 1); (U 0, U 0, U 1); (U 3, U 3, B 0)]
  [(U 3, T 0, T 1); (U 0, U 2, U 0); (U 3, T 1, U 5); (U 5, T 0, U 6); (U 2, U 2, U 4); (U 4, T 2, T 2);
   (U 0, U 5, U 1); (U 2, U 1, U 1); (U 0, U 0, U 1); (U 3, U 3, T 0)] = true.
Proof. vm_compute; reflexivity. Qed.

Example iso_080 : found
  [(B 2, U 1, B 2); (B 1, U 5, U 3); (U 3, B 2, U 5); (U 4, U 6, B 1); (U 4, B 0, U 2); (U 2, U 0, U 2);
   (B 1, U 1, U 1); (U 0, B 1, B 1); (U 5, U 5, U 1); (B 2, U 0, B 2)]
  [(T 2, U 1, T 2); (T 1, U 5, U 3); (U 3, T 2, U 5); (U 4, U 6, T 1); (U 4, T 0, U 2); (U 2, U 0, U 2);
   (T 1, U 1, U 1); (U 0, T 1, T 1); (U 5, U 5, U 1); (T 2, U 0, T 2)] = true.
Proof. vm_compute; reflexivity. Qed.

Example iso_081 : found
  [(B 2, U 5, U 0); (U 9, B 2, U 0); (U 8, U 2, B 9); (U 3, B 4, B 3); (U 6, U 3, B 7); (B 4, U 5, U 7);
   (U 4, U 4, U 9); (B 6, B 6, B 4); (U 0, B 1, U 7); (U 4, U 3, U 4); (B 7, B 6, B 4); (U 2, U 6, U 3);
   (U 3, B 1, B 2); (U 1, B 3, U 8); (U 3, U 1, U 4); (U 5, B 0, B 8); (B 1, U 5, U 2); (B 7, U 5, B 6);
   (B 6, U 0, U 4); (U 9, U 6, B 9)]
  [(T 2, U 5, U 0); (U 9, T 2, U 0); (U 8, U 2, T 9); (U 3, T 4, T 3); (U 6, U 3, T 7); (T 4, U 5, U 7);
   (U 4, U 4, U 9); (T 6, T 6, T 4); (U 0, T 1, U 7); (U 4, U 3, U 4); (T 7, T 6, T 4); (U 2, U 6, U 3);
   (U 3, T 1, T 2); (U 1, T 3, U 8); (U 3, U 1, U 4); (U 5, T 0, T 8); (T 1, U 5, U 2); (T 7, U 5, T 6);
   (T 6, U 0, U 4); (U 9, U 6, T 9)] = true.
Proof. vm_compute; reflexivity. Qed.

Example iso_082 : found
  [(B 6, B 2, U 6); (B 7, U 9, U 6); (U 5, B 9, B 4); (U 1, B 6, B 7); (B 4, U 1, U 6); (B 3, U 2, U 6);
   (U 5, U 1, U 0); (B 4, B 9, U 1); (U 8, U 0, U 9); (B 8, B 0, U 5); (B 9, U 2, B 2); (B 6, B 5, B 6);
   (U 8, U 8, U 6); (U 9, B 3, B 7); (U 4, U 9, U 9); (B 7, U 0, B 0); (B 6, B 3, B 8); (U 1, U 0, B 4);
   (U 7, B 4, B 2); (U 9, U 7, U 8)]
  [(T 6, T 2, U 6); (T 7, U 9, U 6); (U 5, T 9, T 4); (U 1, T 6, T 7); (T 4, U 1, U 6); (T 3, U 2, U 6);
   (U 5, U 1, U 0); (T 4, T 9, U 1); (U 8, U 0, U 9); (T 8, T 0, U 5); (T 9, U 2, T 2); (T 6, T 5, T 6);
   (U 8, U 8, U 6); (U 9, T 3, T 7); (U 4, U 9, U 9); (T 7, U 0, T 0); (T 6, T 3, T 8); (U 1, U 0, T 4);
   (U 7, T 4, T 2); (U 9, U 7, U 8)] = true.
Proof. vm_compute; reflexivity. Qed.

Example iso_083 : found
  [(U 5, B 1, B 4); (B 3, U 4, U 1); (B 1, B 5, B 6); (B 6, U 5, B 9); (B 2, B 7, B 8); (U 5, U 6, B 4);
   (U 4, U 6, B 9); (B 8, B 6, B 1); (U 8, B 8, U 1); (B 4, U 7, B 7); (B 1, B 5, B 1); (U 6, B 5, U 7);
   (U 4, B 3, B 3); (B 6, B 7, U 4); (B 4, B 7, U 0); (U 4, B 7, U 0); (B 4, B 3, U 1); (B 9, B 7, B 0);
   (B 5, U 3, U 1); (U 7, B 9, B 8)]
  [(U 5, T 1, T 4); (T 3, U 4, U 1); (T 1, T 5, T 6); (T 6, U 5, T 9); (T 2, T 7, T 8); (U 5, U 6, T 4);
   (U 4, U 6, T 9); (T 8, T 6, T 1); (U 8, T 8, U 1); (T 4, U 7, T 7); (T 1, T 5, T 1); (U 6, T 5, U 7);
   (U 4, T 3, T 3); (T 6, T 7, U 4); (T 4, T 7, U 0); (U 4, T 7, U 0); (T 4, T 3, U 1); (T 9, T 7, T 0);
   (T 5, U 3, U 1); (U 7, T 9, T 8)] = true.
Proof. vm_compute; reflexivity. Qed.

Example iso_084 : found
  [(U 8, U 3, U 9); (U 3, U 3, B 2); (U 9, B 2, U 0); (U 7, B 6, U 1); (U 0, B 1, U 8); (U 3, U 8, B 2);
   (U 4, B 8, B 4); (B 0, B 8, U 3); (B 6, B 0, U 5); (B 3, U 1, U 8); (B 1, B 3, U 6); (B 4, B 6, B 2);
   (U 8, U 0, B 9); (B 8, U 0, B 6); (U 8, B 5, U 1); (U 8, U 1, B 0); (U 0, U 8, B 8); (B 0, U 4, B 7);
   (B 0, U 6, U 3); (B 9, B 7, U 7)]
  [(U 8, U 3, U 9); (U 3, U 3, T 2); (U 9, T 2, U 0); (U 7, T 6, U 1); (U 0, T 1, U 8); (U 3, U 8, T 2);
   (U 4, T 8, T 4); (T 0, T 8, U 3); (T 6, T 0, U 5); (T 3, U 1, U 8); (T 1, T 3, U 6); (T 4, T 6, T 2);
   (U 8, U 0, T 9); (T 8, U 0, T 6); (U 8, T 5, U 1); (U 8, U 1, T 0); (U 0, U 8, T 8); (T 0, U 4, T 7);
   (T 0, U 6, U 3); (T 9, T 7, U 7)] = true.
Proof. vm_compute; reflexivity. Qed.

Example iso_085 : found
  [(B 4, U 8, B 6); (U 0, U 3, B 1); (B 2, B 4, U 5); (U 4, B 1, U 9); (B 2, U 6, B 7); (B 0, U 6, U 4);
   (B 1, U 7, B 0); (U 8, B 8, B 5); (B 3, U 1, U 5); (U 2, U 6, B 0); (B 8, U 1, U 7); (U 6, U 3, U 0);
   (U 0, U 0, B 0); (B 6, B 8, B 4); (U 3, U 5, B 6); (B 4, U 8, B 4); (B 9, B 1, B 8); (U 0, B 3, U 1);
   (B 7, B 8, B 7); (U 8, B 6, U 0)]
  [(T 4, U 8, T 6); (U 0, U 3, T 1); (T 2, T 4, U 5); (U 4, T 1, U 9); (T 2, U 6, T 7); (T 0, U 6, U 4);
   (T 1, U 7, T 0); (U 8, T 8, T 5); (T 3, U 1, U 5); (U 2, U 6, T 0); (T 8, U 1, U 7); (U 6, U 3, U 0);
   (U 0, U 0, T 0); (T 6, T 8, T 4); (U 3, U 5, T 6); (T 4, U 8, T 4); (T 9, T 1, T 8); (U 0, T 3, U 1);
   (T 7, T 8, T 7); (U 8, T 6, U 0)] = true.
Proof. vm_compute; reflexivity. Qed.

Example iso_086 : found
  [(B 2, U 2, U 0); (U 4, B 7, B 7); (U 4, U 5, B 2); (U 8, B 5, B 6); (U 7, B 5, U 1); (B 6, U 7, U 5);
   (U 3, U 0, U 8); (U 3, U 7, B 7); (U 7, U 0, B 8); (U 9, B 3, U 8); (B 4, B 2, B 8); (B 2, U 3, B 2);
   (U 3, B 9, U 3); (U 5, B 1, U 0); (B 9, U 4, U 3); (U 3, B 8, U 9); (U 9, B 4, B 6); (B 3, U 0, U 4);
   (B 0, U 9, B 9); (U 9, B 9, B 1)]
  [(T 2, U 2, U 0); (U 4, T 7, T 7); (U 4, U 5, T 2); (U 8, T 5, T 6); (U 7, T 5, U 1); (T 6, U 7, U 5);
   (U 3, U 0, U 8); (U 3, U 7, T 7); (U 7, U 0, T 8); (U 9, T 3, U 8); (T 4, T 2, T 8); (T 2, U 3, T 2);
   (U 3, T 9, U 3); (U 5, T 1, U 0); (T 9, U 4, U 3); (U 3, T 8, U 9); (U 9, T 4, T 6); (T 3, U 0, U 4);
   (T 0, U 9, T 9); (U 9, T 9, T 1)] = true.
Proof. vm_compute; reflexivity. Qed.

Example iso_087 : found
  [(B 2, B 1, U 9); (B 0, U 0, U 7); (B 6, B 2, B 9); (U 3, B 1, B 5); (U 3, U 4, B 8); (B 2, U 0, U 5);
   (U 6, U 3, B 6); (U 8, B 1, B 8); (B 0, B 6, B 3); (U 8, U 2, B 2); (B 1, B 1, U 3); (B 0, U 7, B 2);
   (U 9, U 1, B 4); (B 5, U 4, B 4); (U 9, U 1, B 0); (U 9, B 8, U 1); (U 7, U 1, B 5); (U 3, U 4, U 7);
   (B 8, U 8, B 5); (U 5, B 8, U 6)]
  [(T 2, T 1, U 9); (T 0, U 0, U 7); (T 6, T 2, T 9); (U 3, T 1, T 5); (U 3, U 4, T 8); (T 2, U 0, U 5);
   (U 6, U 3, T 6); (U 8, T 1, T 8); (T 0, T 6, T 3); (U 8, U 2, T 2); (T 1, T 1, U 3); (T 0, U 7, T 2);
   (U 9, U 1, T 4); (T 5, U 4, T 4); (U 9, U 1, T 0); (U 9, T 8, U 1); (U 7, U 1, T 5); (U 3, U 4, U 7);
   (T 8, U 8, T 5); (U 5, T 8, U 6)] = true.
Proof. vm_compute; reflexivity. Qed.

Example iso_088 : found
  [(U 8, U 9, B 1); (B 8, B 3, U 9); (B 0, B 8, U 8); (B 6, B 6, B 1); (U 3, U 0, U 7); (B 6, B 9, U 6);
   (U 4, B 6, U 8); (B 9, B 4, B 1); (B 8, U 0, U 4); (B 4, U 6, B 9); (B 2, B 8, B 2); (U 7, U 1, U 9);
   (B 6, B 5, B 0); (B 0, U 0, B 2); (B 0, B 9, U 9); (U 5, U 7, B 3); (B 3, B 1, B 6); (U 1, B 0, B 0);
   (U 3, U 2, B 9); (U 9, B 8, B 2)]
  [(U 8, U 9, T 1); (T 8, T 3, U 9); (T 0, T 8, U 8); (T 6, T 6, T 1); (U 3, U 0, U 7); (T 6, T 9, U 6);
   (U 4, T 6, U 8); (T 9, T 4, T 1); (T 8, U 0, U 4); (T 4, U 6, T 9); (T 2, T 8, T 2); (U 7, U 1, U 9);
   (T 6, T 5, T 0); (T 0, U 0, T 2); (T 0, T 9, U 9); (U 5, U 7, T 3); (T 3, T 1, T 6); (U 1, T 0, T 0);
   (U 3, U 2, T 9); (U 9, T 8, T 2)] = true.
Proof. vm_compute; reflexivity. Qed.

Example iso_089 : found
  [(U 5, U 3, B 7); (U 6, B 9, B 1); (B 6, B 8, U 9); (B 0, U 5, U 7); (B 5, B 2, B 3); (U 2, B 9, U 5);
   (B 8, U 9, U 3); (U 3, U 4, B 9); (U 3, B 3, U 2); (U 7, U 0, B 3); (U 6, U 4, U 2); (U 6, U 6, U 1);
   (U 0, B 3, U 8); (U 3, B 6, B 5); (U 2, B 6, B 6); (B 4, U 6, U 4); (U 9, B 5, B 7); (B 9, U 4, U 0);
   (U 0, B 2, U 7); (U 1, U 3, U 3)]
  [(U 5, U 3, T 7); (U 6, T 9, T 1); (T 6, T 8, U 9); (T 0, U 5, U 7); (T 5, T 2, T 3); (U 2, T 9, U 5);
   (T 8, U 9, U 3); (U 3, U 4, T 9); (U 3, T 3, U 2); (U 7, U 0, T 3); (U 6, U 4, U 2); (U 6, U 6, U 1);
   (U 0, T 3, U 8); (U 3, T 6, T 5); (U 2, T 6, T 6); (T 4, U 6, U 4); (U 9, T 5, T 7); (T 9, U 4, U 0);
   (U 0, T 2, U 7); (U 1, U 3, U 3)] = true.
Proof. vm_compute; reflexivity. Qed.

Example iso_090 : found
  [(U 3, U 9, B 2); (B 1, U 2, B 5); (B 6, U 7, B 3); (U 1, U 2, U 9); (U 4, U 4, B 9); (B 7, B 1, U 5);
   (B 8, U 6, U 7); (U 1, U 1, B 0); (U 6, U 7, B 3); (U 9, U 3, B 1); (B 6, U 4, B 7); (U 9, B 0, B 5);
   (B 9, B 0, U 7); (U 9, U 4, B 8); (B 7, B 2, U 5); (U 8, U 2, U 9); (U 1, U 0, B 2); (B 4, U 8, B 3);
   (B 4, B 8, B 3); (U 7, U 5, B 4)]
  [(U 3, U 9, T 2); (T 1, U 2, T 5); (T 6, U 7, T 3); (U 1, U 2, U 9); (U 4, U 4, T 9); (T 7, T 1, U 5);
   (T 8, U 6, U 7); (U 1, U 1, T 0); (U 6, U 7, T 3); (U 9, U 3, T 1); (T 6, U 4, T 7); (U 9, T 0, T 5);
   (T 9, T 0, U 7); (U 9, U 4, T 8); (T 7, T 2, U 5); (U 8, U 2, U 9); (U 1, U 0, T 2); (T 4, U 8, T 3);
   (T 4, T 8, T 3); (U 7, U 5, T 4)] = true.
Proof. vm_compute; reflexivity. Qed.

Example iso_091 : found
  [(U 9, B 6, U 0); (U 0, B 1, B 3); (U 5, B 4, U 8); (B 5, U 3, U 7); (U 9, B 5, B 0); (U 8, U 2, U 3);
   (B 2, B 0, B 4); (U 9, B 4, B 1); (U 1, B 9, B 5); (B 6, U 8, U 7); (B 2, U 8, U 3); (B 2, U 3, B 7);
   (B 2, B 8, U 0); (U 2, U 8, U 5); (U 0, B 0, U 6); (B 3, B 6, B 9); (U 6, B 6, U 2); (B 2, B 8, B 0);
   (B 9, B 1, U 3); (U 8, B 5, U 5)]
  [(U 9, T 6, U 0); (U 0, T 1, T 3); (U 5, T 4, U 8); (T 5, U 3, U 7); (U 9, T 5, T 0); (U 8, U 2, U 3);
   (T 2, T 0, T 4); (U 9, T 4, T 1); (U 1, T 9, T 5); (T 6, U 8, U 7); (T 2, U 8, U 3); (T 2, U 3, T 7);
   (T 2, T 8, U 0); (U 2, U 8, U 5); (U 0, T 0, U 6); (T 3, T 6, T 9); (U 6, T 6, U 2); (T 2, T 8, T 0);
   (T 9, T 1, U 3); (U 8, T 5, U 5)] = true.
Proof. vm_compute; reflexivity. Qed.

Example iso_092 : found
  [(U 2, U 9, U 9); (B 4, U 5, B 4); (U 7, U 1, B 5); (B 3, B 7, B 0); (B 8, B 3, B 1); (B 4, B 5, B 3);
   (U 2, U 4, U 6); (U 6, B 2, U 4); (B 9, U 1, B 5); (U 7, B 1, B 1); (U 3, U 8, U 6); (U 3, B 6, U 1);
   (U 9, U 6, U 4); (U 2, B 9, U 9); (U 1, U 0, U 5); (U 6, B 3, U 5); (B 9, U 1, U 3); (B 2, B 8, U 9);
   (U 1, U 6, U 7); (U 8, B 1, U 4)]
  [(U 2, U 9, U 9); (T 4, U 5, T 4); (U 7, U 1, T 5); (T 3, T 7, T 0); (T 8, T 3, T 1); (T 4, T 5, T 3);
   (U 2, U 4, U 6); (U 6, T 2, U 4); (T 9, U 1, T 5); (U 7, T 1, T 1); (U 3, U 8, U 6); (U 3, T 6, U 1);
   (U 9, U 6, U 4); (U 2, T 9, U 9); (U 1, U 0, U 5); (U 6, T 3, U 5); (T 9, U 1, U 3); (T 2, T 8, U 9);
   (U 1, U 6, U 7); (U 8, T 1, U 4)] = true.
Proof. vm_compute; reflexivity. Qed.

Example iso_093 : found
  [(U 7, U 2, B 6); (B 5, B 9, U 3); (B 5, B 1, B 5); (U 3, U 5, U 5); (U 2, U 2, U 2); (U 5, B 8, B 5);
   (U 3, U 5, U 7); (B 3, U 5, B 1); (B 9, U 3, B 2); (B 8, U 5, U 7); (U 2, U 3, B 5); (B 1, B 4, B 2);
   (B 5, U 2, B 1); (B 0, B 2, B 0); (B 8, U 6, B 7); (U 4, B 4, U 0); (U 2, B 3, B 3); (B 7, U 4, B 1);
   (U 2, U 2, U 3); (B 8, U 8, B 2)]
  [(U 7, U 2, T 6); (T 5, T 9, U 3); (T 5, T 1, T 5); (U 3, U 5, U 5); (U 2, U 2, U 2); (U 5, T 8, T 5);
   (U 3, U 5, U 7); (T 3, U 5, T 1); (T 9, U 3, T 2); (T 8, U 5, U 7); (U 2, U 3, T 5); (T 1, T 4, T 2);
   (T 5, U 2, T 1); (T 0, T 2, T 0); (T 8, U 6, T 7); (U 4, T 4, U 0); (U 2, T 3, T 3); (T 7, U 4, T 1);
   (U 2, U 2, U 3); (T 8, U 8, T 2)] = true.
Proof. vm_compute; reflexivity. Qed.

Example iso_094 : found
  [(B 1, U 1, U 7); (U 0, U 6, B 1); (U 5, U 9, B 9); (U 5, U 4, B 6); (U 7, U 8, B 1); (B 4, B 2, B 1);
   (B 6, B 4, U 2); (B 9, B 2, B 6); (B 8, U 2, U 8); (B 8, B 3, U 1); (B 3, U 1, B 4); (U 0, U 1, B 2);
   (B 3, B 9, B 6); (U 6, B 2, U 8); (U 0, U 6, U 5); (U 6, B 8, U 7); (B 6, U 4, U 2); (B 0, U 6, U 0);
   (B 8, B 9, B 3); (U 2, U 9, U 5)]
  [(T 1, U 1, U 7); (U 0, U 6, T 1); (U 5, U 9, T 9); (U 5, U 4, T 6); (U 7, U 8, T 1); (T 4, T 2, T 1);
   (T 6, T 4, U 2); (T 9, T 2, T 6); (T 8, U 2, U 8); (T 8, T 3, U 1); (T 3, U 1, T 4); (U 0, U 1, T 2);
   (T 3, T 9, T 6); (U 6, T 2, U 8); (U 0, U 6, U 5); (U 6, T 8, U 7); (T 6, U 4, U 2); (T 0, U 6, U 0);
   (T 8, T 9, T 3); (U 2, U 9, U 5)] = true.
Proof. vm_compute; reflexivity. Qed.

Example iso_095 : found
  [(B 3, B 8, U 8); (U 0, U 8, U 4); (B 9, U 2, B 1); (U 1, U 5, U 4); (B 8, U 0, U 9); (B 0, B 9, B 7);
   (B 5, U 0, B 0); (U 5, U 3, U 0); (U 9, B 0, B 4); (B 3, U 6, B 6); (U 1, B 1, B 6); (B 9, U 6, U 5);
   (B 6, B 6, U 2); (U 1, U 7, U 5); (U 9, B 6, U 8); (B 8, B 1, B 6); (B 2, U 0, B 8); (U 8, B 4, B 9);
   (U 3, B 7, U 8); (B 5, U 2, U 2)]
  [(T 3, T 8, U 8); (U 0, U 8, U 4); (T 9, U 2, T 1); (U 1, U 5, U 4); (T 8, U 0, U 9); (T 0, T 9, T 7);
   (T 5, U 0, T 0); (U 5, U 3, U 0); (U 9, T 0, T 4); (T 3, U 6, T 6); (U 1, T 1, T 6); (T 9, U 6, U 5);
   (T 6, T 6, U 2); (U 1, U 7, U 5); (U 9, T 6, U 8); (T 8, T 1, T 6); (T 2, U 0, T 8); (U 8, T 4, T 9);
   (U 3, T 7, U 8); (T 5, U 2, U 2)] = true.
Proof. vm_compute; reflexivity. Qed.

Example iso_096 : found
  [(B 0, U 3, U 4); (U 8, U 1, U 2); (B 8, U 3, U 6); (B 0, U 8, U 5); (B 3, B 5, B 0); (B 4, B 2, B 4);
   (B 7, B 9, U 7); (B 8, U 1, B 7); (B 8, U 7, U 2); (B 0, U 5, B 1); (B 9, U 6, U 8); (U 8, U 7, B 9);
   (U 3, U 3, U 8); (U 1, U 9, U 8); (U 0, B 6, U 0); (B 3, B 8, U 2); (B 9, U 8, U 2); (B 1, B 6, B 6);
   (B 4, B 4, U 7); (B 0, U 5, B 5)]
  [(T 0, U 3, U 4); (U 8, U 1, U 2); (T 8, U 3, U 6); (T 0, U 8, U 5); (T 3, T 5, T 0); (T 4, T 2, T 4);
   (T 7, T 9, U 7); (T 8, U 1, T 7); (T 8, U 7, U 2); (T 0, U 5, T 1); (T 9, U 6, U 8); (U 8, U 7, T 9);
   (U 3, U 3, U 8); (U 1, U 9, U 8); (U 0, T 6, U 0); (T 3, T 8, U 2); (T 9, U 8, U 2); (T 1, T 6, T 6);
   (T 4, T 4, U 7); (T 0, U 5, T 5)] = true.
Proof. vm_compute; reflexivity. Qed.

Example iso_097 : found
  [(B 5, U 7, B 8); (U 7, B 4, U 3); (B 5, B 9, U 9); (U 7, U 7, B 6); (B 3, B 8, B 8); (B 3, U 6, U 7);
   (B 5, B 1, B 6); (B 0, U 7, B 9); (U 3, B 3, B 0); (U 2, B 9, B 2); (B 3, B 1, U 4); (U 7, B 8, U 6);
   (U 1, U 2, U 6); (B 7, B 0, U 4); (B 8, U 1, B 5); (B 5, B 8, B 8); (U 0, U 4, B 1); (B 6, B 7, B 0);
   (B 7, U 1, U 0); (B 7, B 1, U 9)]
  [(T 5, U 7, T 8); (U 7, T 4, U 3); (T 5, T 9, U 9); (U 7, U 7, T 6); (T 3, T 8, T 8); (T 3, U 6, U 7);
   (T 5, T 1, T 6); (T 0, U 7, T 9); (U 3, T 3, T 0); (U 2, T 9, T 2); (T 3, T 1, U 4); (U 7, T 8, U 6);
   (U 1, U 2, U 6); (T 7, T 0, U 4); (T 8, U 1, T 5); (T 5, T 8, T 8); (U 0, U 4, T 1); (T 6, T 7, T 0);
   (T 7, U 1, U 0); (T 7, T 1, U 9)] = true.
Proof. vm_compute; reflexivity. Qed.

Example iso_098 : found
  [(U 4, U 2, U 8); (B 7, B 3, B 4); (B 5, U 5, B 0); (B 0, B 9, U 4); (B 0, B 7, U 8); (U 3, B 4, U 9);
   (B 1, B 1, B 4); (U 0, U 8, U 4); (B 4, U 1, U 0); (B 9, B 6, U 6); (B 4, B 8, B 8); (B 7, B 9, U 1);
   (U 2, B 1, B 0); (U 0, U 2, U 5); (B 6, U 2, U 9); (U 3, B 0, B 3); (U 5, U 0, B 8); (U 1, U 1, U 9);
   (B 3, B 7, B 3); (B 3, U 0, U 2)]
  [(U 4, U 2, U 8); (T 7, T 3, T 4); (T 5, U 5, T 0); (T 0, T 9, U 4); (T 0, T 7, U 8); (U 3, T 4, U 9);
   (T 1, T 1, T 4); (U 0, U 8, U 4); (T 4, U 1, U 0); (T 9, T 6, U 6); (T 4, T 8, T 8); (T 7, T 9, U 1);
   (U 2, T 1, T 0); (U 0, U 2, U 5); (T 6, U 2, U 9); (U 3, T 0, T 3); (U 5, U 0, T 8); (U 1, U 1, U 9);
   (T 3, T 7, T 3); (T 3, U 0, U 2)] = true.
Proof. vm_compute; reflexivity. Qed.

Example iso_099 : found
  [(B 3, B 5, U 2); (U 3, U 3, U 9); (U 7, B 7, U 1); (U 4, U 1, U 9); (B 5, U 9, B 7); (U 3, B 9, B 6);
   (U 0, B 6, B 4); (B 7, B 2, U 0); (U 5, U 0, B 8); (B 9, U 9, U 4); (B 0, U 9, U 0); (U 8, U 7, U 9);
   (B 0, B 4, B 3); (B 3, U 7, B 1); (B 1, U 7, U 2); (B 2, U 2, B 5); (U 8, B 4, B 7); (B 7, B 5, B 6);
   (U 8, B 3, B 1); (B 0, U 6, U 6)]
  [(T 3, T 5, U 2); (U 3, U 3, U 9); (U 7, T 7, U 1); (U 4, U 1, U 9); (T 5, U 9, T 7); (U 3, T 9, T 6);
   (U 0, T 6, T 4); (T 7, T 2, U 0); (U 5, U 0, T 8); (T 9, U 9, U 4); (T 0, U 9, U 0); (U 8, U 7, U 9);
   (T 0, T 4, T 3); (T 3, U 7, T 1); (T 1, U 7, U 2); (T 2, U 2, T 5); (U 8, T 4, T 7); (T 7, T 5, T 6);
   (U 8, T 3, T 1); (T 0, U 6, U 6)] = true.
Proof. vm_compute; reflexivity. Qed.

Example iso_100 : found
  [(U 8, B 6, U 9); (B 3, U 5, U 5); (U 8, U 6, U 9); (U 1, U 3, U 4); (B 2, U 3, B 9); (U 4, B 0, B 5);
   (B 0, B 3, U 2); (U 2, B 6, B 1); (B 4, U 0, U 8); (U 0, B 4, U 6); (U 5, B 4, B 6); (B 8, U 7, B 7);
   (B 8, B 4, U 3); (B 1, U 1, B 4); (U 4, B 5, B 4); (U 4, U 4, B 6); (U 8, U 8, B 5); (B 4, U 0, B 9);
   (B 1, B 4, B 6); (B 8, B 8, B 7)]
  [(U 8, T 6, U 9); (T 3, U 5, U 5); (U 8, U 6, U 9); (U 1, U 3, U 4); (T 2, U 3, T 9); (U 4, T 0, T 5);
   (T 0, T 3, U 2); (U 2, T 6, T 1); (T 4, U 0, U 8); (U 0, T 4, U 6); (U 5, T 4, T 6); (T 8, U 7, T 7);
   (T 8, T 4, U 3); (T 1, U 1, T 4); (U 4, T 5, T 4); (U 4, U 4, T 6); (U 8, U 8, T 5); (T 4, U 0, T 9);
   (T 1, T 4, T 6); (T 8, T 8, T 7)] = true.
Proof. vm_compute; reflexivity. Qed.

