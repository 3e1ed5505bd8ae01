(** Byte strings of the generated tables, written as string literals. *)
From Verif Require Import Model_Base.

Inductive blob := Blob (l : bytes).
Definition unblob (b : blob) : bytes := match b with Blob l => l end.

Declare Scope blob_scope.
Delimit Scope blob_scope with blob.
Bind Scope blob_scope with blob.
String Notation blob Blob unblob : blob_scope.
