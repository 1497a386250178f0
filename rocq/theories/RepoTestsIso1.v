(** tests/iso.rs, tests iso_001 to iso_050, written by a script from the test's text. *)
From Coq Require Import NArith List.
Import ListNotations.
From Verif Require Import RepoTestRun.
Open Scope N_scope.

Example iso_001 : found
  [(U 3, U 1, U 2); (U 3, U 0, B 0); (U 2, U 3, B 0); (U 3, U 2, U 0); (U 0, U 3, U 2)]
  [(U 3, U 1, U 2); (U 3, U 0, T 0); (U 2, U 3, T 0); (U 3, U 2, U 0); (U 0, U 3, U 2)] = true.
Proof. vm_compute; reflexivity. Qed.

Example iso_002 : found
  [(B 0, U 0, U 0); (U 0, U 0, U 3); (U 2, U 3, U 0); (U 3, U 0, U 0); (B 0, U 2, B 0)]
  [(T 0, U 0, U 0); (U 0, U 0, U 3); (U 2, U 3, U 0); (U 3, U 0, U 0); (T 0, U 2, T 0)] = true.
Proof. vm_compute; reflexivity. Qed.

Example iso_003 : found
  [(U 3, U 3, U 0); (U 2, U 0, U 2); (U 2, U 3, U 3); (U 3, U 2, U 0); (U 3, U 3, B 0)]
  [(U 3, U 3, U 0); (U 2, U 0, U 2); (U 2, U 3, U 3); (U 3, U 2, U 0); (U 3, U 3, T 0)] = true.
Proof. vm_compute; reflexivity. Qed.

Example iso_004 : found
  [(U 0, U 0, U 1); (U 0, U 0, U 2); (U 1, U 1, B 0); (B 0, U 1, B 0); (U 3, U 0, U 3)]
  [(U 0, U 0, U 1); (U 0, U 0, U 2); (U 1, U 1, T 0); (T 0, U 1, T 0); (U 3, U 0, U 3)] = true.
Proof. vm_compute; reflexivity. Qed.

Example iso_005 : found
  [(U 3, U 0, U 1); (U 2, B 0, U 1); (B 0, U 1, U 0); (B 0, U 0, U 1); (U 0, U 3, U 0)]
  [(U 3, U 0, U 1); (U 2, T 0, U 1); (T 0, U 1, U 0); (T 0, U 0, U 1); (U 0, U 3, U 0)] = true.
Proof. vm_compute; reflexivity. Qed.

Example iso_006 : found
  [(U 2, U 3, U 2); (U 1, U 1, B 0); (U 0, U 0, U 3); (U 3, U 2, U 2); (B 0, U 0, U 2)]
  [(U 2, U 3, U 2); (U 1, U 1, T 0); (U 0, U 0, U 3); (U 3, U 2, U 2); (T 0, U 0, U 2)] = true.
Proof. vm_compute; reflexivity. Qed.

Example iso_007 : found
  [(U 1, U 3, U 3); (B 0, U 3, B 0); (U 2, U 0, U 1); (U 2, U 1, U 3); (U 2, U 2, U 0)]
  [(U 1, U 3, U 3); (T 0, U 3, T 0); (U 2, U 0, U 1); (U 2, U 1, U 3); (U 2, U 2, U 0)] = true.
Proof. vm_compute; reflexivity. Qed.

Example iso_008 : found
  [(B 0, U 2, U 0); (U 3, B 0, B 0); (U 3, U 2, U 3); (U 0, U 2, B 0); (U 2, U 0, B 0)]
  [(T 0, U 2, U 0); (U 3, T 0, T 0); (U 3, U 2, U 3); (U 0, U 2, T 0); (U 2, U 0, T 0)] = true.
Proof. vm_compute; reflexivity. Qed.

Example iso_009 : found
  [(U 3, U 2, B 0); (B 0, U 2, U 0); (U 0, U 3, U 2); (U 2, B 0, U 1); (U 1, U 1, B 0)]
  [(U 3, U 2, T 0); (T 0, U 2, U 0); (U 0, U 3, U 2); (U 2, T 0, U 1); (U 1, U 1, T 0)] = true.
Proof. vm_compute; reflexivity. Qed.

Example iso_010 : found
  [(U 3, U 3, U 2); (U 0, U 3, U 2); (U 3, U 3, U 0); (U 2, U 2, B 0); (U 2, B 0, U 0)]
  [(U 3, U 3, U 2); (U 0, U 3, U 2); (U 3, U 3, U 0); (U 2, U 2, T 0); (U 2, T 0, U 0)] = true.
Proof. vm_compute; reflexivity. Qed.

Example iso_011 : found
  [(B 1, B 0, B 1); (U 1, U 0, B 1); (U 1, B 0, U 1); (B 1, U 2, U 2); (U 2, B 0, U 1)]
  [(T 1, T 0, T 1); (U 1, U 0, T 1); (U 1, T 0, U 1); (T 1, U 2, U 2); (U 2, T 0, U 1)] = true.
Proof. vm_compute; reflexivity. Qed.

Example iso_012 : found
  [(U 1, U 2, U 0); (B 1, U 0, U 2); (B 0, U 2, B 1); (B 1, U 1, U 2); (B 0, B 1, U 2)]
  [(U 1, U 2, U 0); (T 1, U 0, U 2); (T 0, U 2, T 1); (T 1, U 1, U 2); (T 0, T 1, U 2)] = true.
Proof. vm_compute; reflexivity. Qed.

Example iso_013 : found
  [(B 1, U 2, B 1); (B 1, U 2, B 0); (U 0, B 1, B 0); (B 0, U 0, U 2); (B 1, U 0, B 1)]
  [(T 1, U 2, T 1); (T 1, U 2, T 0); (U 0, T 1, T 0); (T 0, U 0, U 2); (T 1, U 0, T 1)] = true.
Proof. vm_compute; reflexivity. Qed.

Example iso_014 : found
  [(B 0, U 1, U 0); (U 2, B 1, U 0); (U 1, U 0, B 0); (U 2, U 2, B 0); (U 0, B 0, B 1)]
  [(T 0, U 1, U 0); (U 2, T 1, U 0); (U 1, U 0, T 0); (U 2, U 2, T 0); (U 0, T 0, T 1)] = true.
Proof. vm_compute; reflexivity. Qed.

Example iso_015 : found
  [(U 2, U 2, U 1); (B 0, U 2, B 1); (B 1, U 1, B 1); (B 1, U 2, B 0); (U 1, B 1, U 2)]
  [(U 2, U 2, U 1); (T 0, U 2, T 1); (T 1, U 1, T 1); (T 1, U 2, T 0); (U 1, T 1, U 2)] = true.
Proof. vm_compute; reflexivity. Qed.

Example iso_016 : found
  [(U 2, U 2, U 1); (B 0, U 0, B 0); (B 0, B 0, B 0); (U 0, U 0, U 0); (B 0, U 2, B 1)]
  [(U 2, U 2, U 1); (T 0, U 0, T 0); (T 0, T 0, T 0); (U 0, U 0, U 0); (T 0, U 2, T 1)] = true.
Proof. vm_compute; reflexivity. Qed.

Example iso_017 : found
  [(B 1, B 0, B 0); (B 1, U 2, U 2); (U 0, U 0, U 0); (U 1, U 2, U 0); (B 1, U 1, B 1)]
  [(T 1, T 0, T 0); (T 1, U 2, U 2); (U 0, U 0, U 0); (U 1, U 2, U 0); (T 1, U 1, T 1)] = true.
Proof. vm_compute; reflexivity. Qed.

Example iso_018 : found
  [(B 1, B 0, U 0); (B 1, U 0, B 1); (B 1, U 0, U 0); (U 2, U 1, B 1); (U 0, U 0, U 2)]
  [(T 1, T 0, U 0); (T 1, U 0, T 1); (T 1, U 0, U 0); (U 2, U 1, T 1); (U 0, U 0, U 2)] = true.
Proof. vm_compute; reflexivity. Qed.

Example iso_019 : found
  [(U 1, U 1, U 1); (U 1, U 2, U 1); (B 1, U 1, B 1); (B 1, U 1, U 0); (B 0, U 1, U 2)]
  [(U 1, U 1, U 1); (U 1, U 2, U 1); (T 1, U 1, T 1); (T 1, U 1, U 0); (T 0, U 1, U 2)] = true.
Proof. vm_compute; reflexivity. Qed.

Example iso_020 : found
  [(U 0, U 2, B 0); (U 1, U 2, U 0); (B 0, U 0, U 1); (B 0, U 1, U 2); (U 0, U 1, U 0)]
  [(U 0, U 2, T 0); (U 1, U 2, U 0); (T 0, U 0, U 1); (T 0, U 1, U 2); (U 0, U 1, U 0)] = true.
Proof. vm_compute; reflexivity. Qed.

Example iso_021 : found
  [(U 0, U 1, U 0); (U 1, B 1, B 1); (B 0, U 1, U 0); (U 0, U 0, B 1); (B 0, U 1, U 2)]
  [(U 0, U 1, U 0); (U 1, T 1, T 1); (T 0, U 1, U 0); (U 0, U 0, T 1); (T 0, U 1, U 2)] = true.
Proof. vm_compute; reflexivity. Qed.

Example iso_022 : found
  [(U 1, U 2, U 0); (U 0, U 2, B 0); (B 0, U 2, U 1); (U 0, B 0, U 1); (B 0, U 2, U 0)]
  [(U 1, U 2, U 0); (U 0, U 2, T 0); (T 0, U 2, U 1); (U 0, T 0, U 1); (T 0, U 2, U 0)] = true.
Proof. vm_compute; reflexivity. Qed.

Example iso_023 : found
  [(U 0, B 0, B 0); (U 2, U 1, B 1); (B 0, U 0, U 1); (B 1, B 1, U 2); (U 2, U 2, U 2)]
  [(U 0, T 0, T 0); (U 2, U 1, T 1); (T 0, U 0, U 1); (T 1, T 1, U 2); (U 2, U 2, U 2)] = true.
Proof. vm_compute; reflexivity. Qed.

Example iso_024 : found
  [(U 2, U 2, U 0); (U 0, U 2, U 2); (B 0, B 0, B 0); (U 1, B 1, U 0); (U 1, B 1, B 0)]
  [(U 2, U 2, U 0); (U 0, U 2, U 2); (T 0, T 0, T 0); (U 1, T 1, U 0); (U 1, T 1, T 0)] = true.
Proof. vm_compute; reflexivity. Qed.

Example iso_025 : found
  [(B 1, U 2, B 0); (U 0, U 0, B 1); (U 0, U 1, U 0); (B 0, B 0, B 0); (U 0, B 0, U 1)]
  [(T 1, U 2, T 0); (U 0, U 0, T 1); (U 0, U 1, U 0); (T 0, T 0, T 0); (U 0, T 0, U 1)] = true.
Proof. vm_compute; reflexivity. Qed.

Example iso_026 : found
  [(U 0, U 2, B 1); (U 1, B 0, B 1); (U 2, U 0, B 1); (B 0, U 2, U 1); (U 2, U 0, U 1)]
  [(U 0, U 2, T 1); (U 1, T 0, T 1); (U 2, U 0, T 1); (T 0, U 2, U 1); (U 2, U 0, U 1)] = true.
Proof. vm_compute; reflexivity. Qed.

Example iso_027 : found
  [(U 0, U 0, U 1); (B 0, U 0, B 0); (U 0, U 2, B 0); (U 1, U 1, B 1); (B 0, U 2, B 0)]
  [(U 0, U 0, U 1); (T 0, U 0, T 0); (U 0, U 2, T 0); (U 1, U 1, T 1); (T 0, U 2, T 0)] = true.
Proof. vm_compute; reflexivity. Qed.

Example iso_028 : found
  [(B 0, B 1, U 1); (U 2, U 2, B 0); (U 0, U 1, U 0); (U 2, U 1, B 0); (U 2, U 0, U 2)]
  [(T 0, T 1, U 1); (U 2, U 2, T 0); (U 0, U 1, U 0); (U 2, U 1, T 0); (U 2, U 0, U 2)] = true.
Proof. vm_compute; reflexivity. Qed.

Example iso_029 : found
  [(U 2, U 2, U 1); (B 0, B 0, U 1); (B 1, U 0, U 2); (B 0, U 2, B 0); (U 0, B 0, U 0)]
  [(U 2, U 2, U 1); (T 0, T 0, U 1); (T 1, U 0, U 2); (T 0, U 2, T 0); (U 0, T 0, U 0)] = true.
Proof. vm_compute; reflexivity. Qed.

Example iso_030 : found
  [(B 1, B 1, U 2); (B 1, B 0, U 0); (U 2, B 0, B 0); (U 2, U 1, U 0); (U 0, B 0, B 1)]
  [(T 1, T 1, U 2); (T 1, T 0, U 0); (U 2, T 0, T 0); (U 2, U 1, U 0); (U 0, T 0, T 1)] = true.
Proof. vm_compute; reflexivity. Qed.

Example iso_031 : found
  [(B 2, U 0, U 2); (U 3, U 6, U 6); (U 5, U 5, B 1); (U 0, U 1, B 0); (U 3, U 0, B 2); (B 0, U 0, U 4);
   (B 1, U 1, B 2); (U 2, U 5, B 2); (U 0, B 0, U 5); (U 5, U 3, B 2)]
  [(T 2, U 0, U 2); (U 3, U 6, U 6); (U 5, U 5, T 1); (U 0, U 1, T 0); (U 3, U 0, T 2); (T 0, U 0, U 4);
   (T 1, U 1, T 2); (U 2, U 5, T 2); (U 0, T 0, U 5); (U 5, U 3, T 2)] = true.
Proof. vm_compute; reflexivity. Qed.

Example iso_032 : found
  [(U 4, B 0, U 1); (U 4, B 0, U 6); (U 0, U 6, U 2); (U 1, B 0, U 2); (U 4, U 1, U 6); (B 0, U 3, U 6);
   (U 2, U 1, B 0); (U 1, U 4, U 6); (B 2, U 0, U 2); (B 0, U 6, B 1)]
  [(U 4, T 0, U 1); (U 4, T 0, U 6); (U 0, U 6, U 2); (U 1, T 0, U 2); (U 4, U 1, U 6); (T 0, U 3, U 6);
   (U 2, U 1, T 0); (U 1, U 4, U 6); (T 2, U 0, U 2); (T 0, U 6, T 1)] = true.
Proof. vm_compute; reflexivity. Qed.

Example iso_033 : found
  [(U 2, U 0, U 4); (U 6, U 5, U 0); (B 2, U 4, U 6); (U 3, U 4, U 6); (U 0, U 0, U 2); (U 1, U 3, U 3);
   (U 0, B 2, U 3); (B 1, U 5, U 0); (B 0, B 0, B 2); (U 6, U 3, U 1)]
  [(U 2, U 0, U 4); (U 6, U 5, U 0); (T 2, U 4, U 6); (U 3, U 4, U 6); (U 0, U 0, U 2); (U 1, U 3, U 3);
   (U 0, T 2, U 3); (T 1, U 5, U 0); (T 0, T 0, T 2); (U 6, U 3, U 1)] = true.
Proof. vm_compute; reflexivity. Qed.

Example iso_034 : found
  [(B 2, U 4, U 1); (U 0, U 6, U 3); (U 2, U 5, U 2); (U 4, U 6, U 4); (U 1, B 0, U 1); (B 0, U 6, U 2);
   (U 3, U 6, U 1); (U 3, U 4, U 0); (U 0, U 0, U 0); (U 3, U 5, U 2)]
  [(T 2, U 4, U 1); (U 0, U 6, U 3); (U 2, U 5, U 2); (U 4, U 6, U 4); (U 1, T 0, U 1); (T 0, U 6, U 2);
   (U 3, U 6, U 1); (U 3, U 4, U 0); (U 0, U 0, U 0); (U 3, U 5, U 2)] = true.
Proof. vm_compute; reflexivity. Qed.

Example iso_035 : found
  [(B 0, U 3, B 2); (B 1, U 5, B 0); (U 1, U 1, B 1); (U 1, U 3, U 2); (U 1, B 2, B 2); (B 2, U 1, U 3);
   (U 5, B 0, U 4); (B 1, U 0, U 2); (B 0, U 6, U 4); (U 4, B 0, U 4)]
  [(T 0, U 3, T 2); (T 1, U 5, T 0); (U 1, U 1, T 1); (U 1, U 3, U 2); (U 1, T 2, T 2); (T 2, U 1, U 3);
   (U 5, T 0, U 4); (T 1, U 0, U 2); (T 0, U 6, U 4); (U 4, T 0, U 4)] = true.
Proof. vm_compute; reflexivity. Qed.

Example iso_036 : found
  [(U 5, U 6, U 1); (B 1, U 0, U 4); (B 1, B 0, U 5); (B 2, B 0, U 0); (B 0, U 6, U 1); (U 5, B 0, U 2);
   (U 3, U 4, U 0); (U 1, U 3, U 6); (B 2, B 1, U 5); (U 4, B 0, B 1)]
  [(U 5, U 6, U 1); (T 1, U 0, U 4); (T 1, T 0, U 5); (T 2, T 0, U 0); (T 0, U 6, U 1); (U 5, T 0, U 2);
   (U 3, U 4, U 0); (U 1, U 3, U 6); (T 2, T 1, U 5); (U 4, T 0, T 1)] = true.
Proof. vm_compute; reflexivity. Qed.

Example iso_037 : found
  [(U 3, U 4, B 1); (U 6, U 5, U 3); (B 1, U 3, B 0); (U 6, U 1, B 0); (B 0, U 3, U 0); (U 5, B 1, U 6);
   (U 0, B 0, U 6); (U 2, U 4, B 0); (U 6, U 3, U 6); (U 3, B 2, U 4)]
  [(U 3, U 4, T 1); (U 6, U 5, U 3); (T 1, U 3, T 0); (U 6, U 1, T 0); (T 0, U 3, U 0); (U 5, T 1, U 6);
   (U 0, T 0, U 6); (U 2, U 4, T 0); (U 6, U 3, U 6); (U 3, T 2, U 4)] = true.
Proof. vm_compute; reflexivity. Qed.

Example iso_038 : found
  [(U 2, B 1, B 0); (U 3, U 0, B 2); (U 2, U 4, U 4); (U 0, B 0, U 5); (B 1, U 2, U 0); (U 5, U 2, U 1);
   (U 3, U 6, U 2); (B 0, U 3, U 3); (U 3, B 0, B 2); (U 3, U 4, U 4)]
  [(U 2, T 1, T 0); (U 3, U 0, T 2); (U 2, U 4, U 4); (U 0, T 0, U 5); (T 1, U 2, U 0); (U 5, U 2, U 1);
   (U 3, U 6, U 2); (T 0, U 3, U 3); (U 3, T 0, T 2); (U 3, U 4, U 4)] = true.
Proof. vm_compute; reflexivity. Qed.

Example iso_039 : found
  [(U 3, B 2, B 2); (U 3, B 0, U 5); (U 1, B 1, U 2); (B 2, U 2, U 3); (B 1, U 2, B 1); (B 1, U 6, B 1);
   (U 5, U 1, U 1); (U 2, B 1, U 4); (U 6, U 2, B 0); (U 2, U 2, U 4)]
  [(U 3, T 2, T 2); (U 3, T 0, U 5); (U 1, T 1, U 2); (T 2, U 2, U 3); (T 1, U 2, T 1); (T 1, U 6, T 1);
   (U 5, U 1, U 1); (U 2, T 1, U 4); (U 6, U 2, T 0); (U 2, U 2, U 4)] = true.
Proof. vm_compute; reflexivity. Qed.

Example iso_040 : found
  [(B 0, U 6, U 5); (U 2, U 4, U 0); (B 1, U 0, U 6); (U 6, U 3, B 1); (B 2, U 4, B 0); (U 0, U 5, B 0);
   (B 0, U 3, B 1); (U 5, U 3, U 2); (U 6, B 2, B 2); (U 3, U 6, U 6)]
  [(T 0, U 6, U 5); (U 2, U 4, U 0); (T 1, U 0, U 6); (U 6, U 3, T 1); (T 2, U 4, T 0); (U 0, U 5, T 0);
   (T 0, U 3, T 1); (U 5, U 3, U 2); (U 6, T 2, T 2); (U 3, U 6, U 6)] = true.
Proof. vm_compute; reflexivity. Qed.

Example iso_041 : found
  [(U 0, U 2, B 2); (U 4, U 2, U 0); (U 6, B 2, U 0); (B 1, B 1, U 3); (B 1, B 1, U 2); (U 0, U 3, U 3);
   (U 5, B 1, U 6); (U 6, B 0, B 0); (U 5, U 1, U 5); (U 5, U 3, U 3)]
  [(U 0, U 2, T 2); (U 4, U 2, U 0); (U 6, T 2, U 0); (T 1, T 1, U 3); (T 1, T 1, U 2); (U 0, U 3, U 3);
   (U 5, T 1, U 6); (U 6, T 0, T 0); (U 5, U 1, U 5); (U 5, U 3, U 3)] = true.
Proof. vm_compute; reflexivity. Qed.

Example iso_042 : found
  [(U 6, U 3, U 0); (B 2, U 1, U 2); (U 2, U 2, U 3); (U 0, B 0, U 0); (U 6, U 4, U 2); (U 4, U 5, U 4);
   (U 0, B 0, U 1); (U 5, B 2, U 6); (U 1, U 0, U 1); (B 2, U 1, U 6)]
  [(U 6, U 3, U 0); (T 2, U 1, U 2); (U 2, U 2, U 3); (U 0, T 0, U 0); (U 6, U 4, U 2); (U 4, U 5, U 4);
   (U 0, T 0, U 1); (U 5, T 2, U 6); (U 1, U 0, U 1); (T 2, U 1, U 6)] = true.
Proof. vm_compute; reflexivity. Qed.

Example iso_043 : found
  [(U 0, U 1, U 2); (U 1, U 3, U 0); (U 0, B 2, B 1); (U 3, U 6, B 0); (U 2, B 0, U 5); (B 1, U 3, U 1);
   (U 5, U 4, U 1); (U 5, U 1, B 2); (B 1, U 4, B 0); (U 0, B 0, U 4)]
  [(U 0, U 1, U 2); (U 1, U 3, U 0); (U 0, T 2, T 1); (U 3, U 6, T 0); (U 2, T 0, U 5); (T 1, U 3, U 1);
   (U 5, U 4, U 1); (U 5, U 1, T 2); (T 1, U 4, T 0); (U 0, T 0, U 4)] = true.
Proof. vm_compute; reflexivity. Qed.

Example iso_044 : found
  [(U 3, U 2, U 1); (U 6, U 1, U 0); (U 2, U 0, B 0); (U 1, U 5, U 5); (B 2, U 6, U 0); (U 3, U 4, B 1);
   (U 5, U 1, U 4); (B 1, U 2, B 0); (U 4, U 4, B 1); (U 6, U 5, U 5)]
  [(U 3, U 2, U 1); (U 6, U 1, U 0); (U 2, U 0, T 0); (U 1, U 5, U 5); (T 2, U 6, U 0); (U 3, U 4, T 1);
   (U 5, U 1, U 4); (T 1, U 2, T 0); (U 4, U 4, T 1); (U 6, U 5, U 5)] = true.
Proof. vm_compute; reflexivity. Qed.

Example iso_045 : found
  [(U 0, U 2, U 4); (U 6, B 0, U 6); (U 6, B 0, B 2); (B 2, B 0, B 0); (U 4, U 4, B 2); (U 0, U 3, B 0);
   (U 4, U 2, U 5); (U 2, U 2, B 2); (U 0, U 6, U 6); (U 6, U 0, U 5)]
  [(U 0, U 2, U 4); (U 6, T 0, U 6); (U 6, T 0, T 2); (T 2, T 0, T 0); (U 4, U 4, T 2); (U 0, U 3, T 0);
   (U 4, U 2, U 5); (U 2, U 2, T 2); (U 0, U 6, U 6); (U 6, U 0, U 5)] = true.
Proof. vm_compute; reflexivity. Qed.

Example iso_046 : found
  [(U 6, U 5, B 2); (U 1, U 5, U 5); (U 6, B 1, B 0); (B 2, B 0, U 1); (U 0, U 4, U 1); (U 4, B 0, U 4);
   (U 5, B 0, B 0); (U 6, U 4, U 3); (U 6, U 1, B 1); (B 2, U 3, B 0)]
  [(U 6, U 5, T 2); (U 1, U 5, U 5); (U 6, T 1, T 0); (T 2, T 0, U 1); (U 0, U 4, U 1); (U 4, T 0, U 4);
   (U 5, T 0, T 0); (U 6, U 4, U 3); (U 6, U 1, T 1); (T 2, U 3, T 0)] = true.
Proof. vm_compute; reflexivity. Qed.

Example iso_047 : found
  [(U 1, U 3, U 6); (B 1, U 0, U 1); (U 4, U 5, B 0); (B 2, U 0, U 2); (U 3, B 0, B 2); (B 2, U 6, U 5);
   (U 1, B 0, B 2); (U 6, U 0, U 4); (U 1, U 5, U 4); (U 3, U 2, U 6)]
  [(U 1, U 3, U 6); (T 1, U 0, U 1); (U 4, U 5, T 0); (T 2, U 0, U 2); (U 3, T 0, T 2); (T 2, U 6, U 5);
   (U 1, T 0, T 2); (U 6, U 0, U 4); (U 1, U 5, U 4); (U 3, U 2, U 6)] = true.
Proof. vm_compute; reflexivity. Qed.

Example iso_048 : found
  [(B 2, U 2, B 0); (B 1, U 3, U 1); (U 1, B 1, B 0); (B 2, B 1, B 1); (U 1, U 5, U 2); (U 2, B 0, U 5);
   (U 2, U 2, B 0); (U 4, B 2, U 6); (U 6, U 4, U 1); (U 1, B 2, U 1)]
  [(T 2, U 2, T 0); (T 1, U 3, U 1); (U 1, T 1, T 0); (T 2, T 1, T 1); (U 1, U 5, U 2); (U 2, T 0, U 5);
   (U 2, U 2, T 0); (U 4, T 2, U 6); (U 6, U 4, U 1); (U 1, T 2, U 1)] = true.
Proof. vm_compute; reflexivity. Qed.

Example iso_049 : found
  [(B 2, U 3, U 0); (U 2, U 4, B 1); (B 0, U 1, U 0); (U 3, U 4, U 5); (U 3, U 1, U 4); (B 1, U 3, U 0);
   (U 2, B 2, U 4); (U 4, U 6, U 3); (B 2, B 0, U 3); (U 0, U 4, U 2)]
  [(T 2, U 3, U 0); (U 2, U 4, T 1); (T 0, U 1, U 0); (U 3, U 4, U 5); (U 3, U 1, U 4); (T 1, U 3, U 0);
   (U 2, T 2, U 4); (U 4, U 6, U 3); (T 2, T 0, U 3); (U 0, U 4, U 2)] = true.
Proof. vm_compute; reflexivity. Qed.

Example iso_050 : found
  [(B 2, B 1, U 6); (B 2, U 5, B 2); (U 1, U 3, U 4); (U 3, U 0, U 1); (B 2, U 4, U 3); (U 2, U 3, U 5);
   (B 0, B 2, U 3); (U 4, B 2, U 4); (U 5, B 0, U 4); (U 5, U 3, U 5)]
  [(T 2, T 1, U 6); (T 2, U 5, T 2); (U 1, U 3, U 4); (U 3, U 0, U 1); (T 2, U 4, U 3); (U 2, U 3, U 5);
   (T 0, T 2, U 3); (U 4, T 2, U 4); (U 5, T 0, U 4); (U 5, U 3, U 5)] = true.
Proof. vm_compute; reflexivity. Qed.

