(** From LDIF files to the text that is parsed (server/handler/ldif/ldif.go:24-139
    and the reading part of handler.go:89-128).  Definitions only. *)
From stdpp Require Export sorting.
From Verif Require Import Bytes Res Entry.

Definition lf : ascii := ascii_of_N 10.
Definition cr : ascii := ascii_of_N 13.

(** The two libraries: text/template applied to a text (None: an error in parsing
    or in executing; variables, functions and the files they read are fixed), and
    the Unmarshal of go-ldap/ldif. *)
Class Files := {
  render : str -> option str;
  unmarshal : str -> option (list (option entry))
}.

(** bufio.ScanLines: the line without a carriage return at its end. *)
Definition drop_cr (l : str) : str :=
  match rev l with c :: r => if aeqb c cr then rev r else l | [] => [] end.
(** bufio.MaxScanTokenSize: a line (without its line feed) of this length does not
    fit the buffer. *)
Definition max_line : Z := 65536.
(** The pieces between line feeds up to the first one that is too long; the piece
    after the last line feed is no line if it is empty. *)
Fixpoint fitting (pieces : list str) : list str :=
  match pieces with
  | [] => []
  | [p] => if is_empty p || (max_line <=? Z.of_nat (length p))%Z then [] else [p]
  | p :: ps => if (max_line <=? Z.of_nat (length p))%Z then [] else p :: fitting ps
  end.
(** bufio.Scanner over a whole input with Scan in a loop and Err never asked
    (ldif.go:98-108; newusers.go:140-145). *)
Definition scan_lines (s : str) : list str := map drop_cr (fitting (Bytes.split lf s)).

(** ldif.go:103 *)
Definition is_comment (l : str) : bool := has_prefix l (B "#").
(** ldif.go:98-113: the text handed to the template engine. *)
Definition template_text (s : str) : str :=
  Bytes.join [lf] (bfilter (fun l => negb (is_comment l)) (scan_lines s)).

Section load.
Context {F : Files}.

(** ldif.go:97-129 parseLDIFTemplate. *)
Definition process (s : str) : option str := render (template_text s).

(** ldif.go:25-44 parseLDIFFile with parseLDIF (131-139); the file is None if it
    cannot be opened. *)
Definition parse_file (disabled : bool) (file : option str) : option (list (option entry)) :=
  match file with
  | None => None
  | Some s => match (if disabled then Some s else process s) with Some t => unmarshal t | None => None end
  end.

(** ldif.go:59-89, one file: its text, or one more error. *)
Definition dir_text (disabled : bool) (file : option str) : option str :=
  match file with
  | None => None
  | Some s => if disabled then Some s else process s
  end.
End load.

(** Byte-wise order of strings (ldif.go:53-55). *)
Fixpoint str_leb (a b : str) : bool :=
  match a, b with
  | [], _ => true
  | _ :: _, [] => false
  | x :: a', y :: b' => if aeqb x y then str_leb a' b' else (code x <? code y)%N
  end.
Definition name_le (a b : str * option str) : Prop := str_leb a.1 b.1 = true.
Global Instance name_le_dec a b : Decision (name_le a b).
Proof. unfold name_le. apply _. Defined.

(** ldif.go:49: the names Glob gives.  Simplification: the path of the folder has
    no pattern characters and can be read. *)
Definition is_ldif (n : str) : bool := has_suffix n (B ".ldif").

Section load_dir.
Context {F : Files}.
(** ldif.go:48-93 parseLDIFDirectory on a folder, given as its listing of names
    with contents (None: cannot be opened).  Number of file errors and result. *)
Definition parse_dir (disabled : bool) (listing : list (str * option str)) : nat * option (list (option entry)) :=
  let files := merge_sort name_le (bfilter (fun f => is_ldif f.1) listing) in
  let texts := map (fun f => dir_text disabled f.2) files in
  (length (bfilter (fun t => match t with None => true | Some _ => false end) texts),
   unmarshal (List.concat (map (fun t => match t with Some s => s ++ [lf; lf] | None => [] end) texts))).

(** handler.go:94-124: what open goes on with; None is an error. *)
Inductive source := OneFile (file : option str) | Folder (listing : list (str * option str)).
Definition load_source (disabled : bool) (s : source) : option (list (option entry)) :=
  match s with
  | OneFile f => parse_file disabled f
  | Folder l => match parse_dir disabled l with (0, r) => r | (S _, _) => None end
  end.
End load_dir.
