(** Outcomes of Go functions: a value, an error value, or a panic. *)
From Verif Require Import Bytes.

(** LDAP result codes used by the code (go-ldap error.go constants). *)
Definition Success : N := 0.
Definition OperationsError : N := 1.
Definition ProtocolError : N := 2.
Definition SizeLimitExceeded : N := 4.
Definition UnwillingToPerform : N := 53.
Definition InappropriateAuthentication : N := 48.
Definition InvalidCredentials : N := 49.
Definition InsufficientAccessRights : N := 50.
Definition InvalidDNSyntax : N := 34.
Definition NotAllowedOnRDN : N := 67.
Definition EntryAlreadyExists : N := 68.
Definition ResultOther : N := 80.
Definition DecodingError : N := 84.

(** Errors, kept apart as far as callers distinguish them.  [ELdap code inner]
    is a *ldap.Error; [inner] says whether its Err field is non-nil. *)
Inductive err :=
| EExists            (* ldbbolt.ErrEntryAlreadyExists *)
| ENotFound          (* ldbbolt.ErrEntryNotFound *)
| ENonLeaf           (* ldbbolt.ErrNonLeafEntry *)
| ENotDescendant     (* "... is not a descendant of ..." *)
| ENoParent          (* "parent not found ..." *)
| EParse             (* an error of ldap.ParseDN *)
| EKey               (* bbolt ErrKeyRequired / ErrKeyTooLarge *)
| EIo                (* an I/O error reported by bbolt *)
| EDecode            (* "error decoding entry id ..." *)
| EOther             (* any other plain error *)
| ELdap (code : N) (inner : bool).

Inductive res (A : Type) :=
| Ok (a : A)
| Err (e : err)
| Panic
| Diverge.  (* unbounded recursion that does not return *)
Arguments Ok {A} a.
Arguments Err {A} e.
Arguments Panic {A}.
Arguments Diverge {A}.

Definition rbind {A B} (m : res A) (f : A -> res B) : res B :=
  match m with
  | Ok a => f a
  | Err e => Err e
  | Panic => Panic
  | Diverge => Diverge
  end.
Notation "x <-- m ;; k" := (rbind m (fun x => k))
  (at level 60, m at next level, right associativity).
