(** The functions LDIF templates can call (server/handler/ldif/template.go) and
    the parts of path/filepath and encoding/base64 they use.  Definitions only. *)
From stdpp Require Export gmap.
From Verif Require Import Bytes Res.

Definition slash : ascii := "/"%char.

(** path/filepath Clean on Unix (the rules 1-4 of its documentation): empty and
    "." components go, ".." takes the component before it, a leading ".." of a
    rooted path goes.  [stack] holds the components kept, last first. *)
Fixpoint clean_parts (rooted : bool) (stack parts : list str) : list str :=
  match parts with
  | [] => rev stack
  | p :: ps =>
      if is_empty p || seqb p (B ".") then clean_parts rooted stack ps
      else if seqb p (B "..") then
        match stack with
        | q :: stack' => if seqb q (B "..") then clean_parts rooted (p :: stack) ps else clean_parts rooted stack' ps
        | [] => clean_parts rooted (if rooted then [] else [p]) ps
        end
      else clean_parts rooted (p :: stack) ps
  end.
(** filepath.IsAbs on Unix. *)
Definition is_abs (p : str) : bool := has_prefix p [slash].
Definition clean (p : str) : str :=
  let kept := clean_parts (is_abs p) [] (Bytes.split slash p) in
  if is_abs p then slash :: Bytes.join [slash] kept
  else if is_empty kept then B "." else Bytes.join [slash] kept.
(** filepath.Join of two elements, neither of them empty. *)
Definition join_path (a b : str) : str := clean (a ++ slash :: b).
(** filepath.Abs; [cwd] is what os.Getwd gives (None: it fails). *)
Definition abs_path (cwd : option str) (p : str) : option str :=
  if is_abs p then Some (clean p) else match cwd with Some d => Some (join_path d p) | None => None end.

(** template.go:80-98, from the call of formatAsFileBase64 to the name given to
    os.Open; None is an error before that. *)
Definition file_to_open (cwd : option str) (base fn : str) : option str :=
  if is_empty base then None
  else
    let fn1 := clean fn in
    let fn2 := if is_abs fn1 then fn1 else join_path base fn1 in
    match abs_path cwd fn2 with
    | None => None
    | Some p => if has_prefix p (rtrim_ch slash base ++ [slash]) then Some p else None
    end.

(** encoding/base64 StdEncoding: three bytes to four characters. *)
Definition b64_alphabet : str := B "ABCDEFGHIJKLMNOPQRSTUVWXYZabcdefghijklmnopqrstuvwxyz0123456789+/".
Definition b64_char (n : N) : ascii := nth (N.to_nat n) b64_alphabet "="%char.
Definition b64_group (a b c : ascii) : str :=
  let n := (code a * 65536 + code b * 256 + code c)%N in
  [b64_char (n / 262144); b64_char (n / 4096 mod 64); b64_char (n / 64 mod 64); b64_char (n mod 64)].
(** EncodeToString, with padding. *)
Fixpoint b64 (s : str) : str :=
  match s with
  | a :: b :: c :: s' => b64_group a b c ++ b64 s'
  | [a; b] => let n := (code a * 65536 + code b * 256)%N in
              [b64_char (n / 262144); b64_char (n / 4096 mod 64); b64_char (n / 64 mod 64); "="%char]
  | [a] => let n := (code a * 65536)%N in [b64_char (n / 262144); b64_char (n / 4096 mod 64); "="%char; "="%char]
  | [] => []
  end.
(** The stream encoder of base64.NewEncoder: what is pending (at most two bytes)
    and what has been written.  Write encodes all complete groups and keeps the
    rest; only Close would write the rest with padding. *)
Record encoder := mkEnc { en_rest : str; en_out : str }.
Fixpoint enc_groups (s out : str) : encoder :=
  match s with
  | a :: b :: c :: s' => enc_groups s' (out ++ b64_group a b c)
  | _ => mkEnc s out
  end.
Definition enc_write (e : encoder) (p : str) : encoder := enc_groups (en_rest e ++ p) (en_out e).

(** template.go:21 formatAsFileSizeLimit. *)
Definition file_limit : Z := 1048576.
(** template.go:98-116: the file (None: it cannot be opened) comes in pieces as
    io.Copy reads them; LimitReader lets limit + 1 bytes through.  Simplification:
    an error while reading is not modelled apart from an open error; both give an
    error. *)
Definition encode_file (pieces : option (list str)) : option str :=
  match pieces with
  | None => None
  | Some ps =>
      let data := List.concat ps in
      if (file_limit <? Z.of_nat (length data))%Z then None
      else Some (en_out (foldl enc_write (mkEnc [] []) ps))
  end.
(** template.go:77-79 formatAsBase64. *)
Definition format_base64 (s : str) : str := b64 s.

(** Values of the template map: strings, uint64 and anything else. *)
Inductive tval := VStr (s : str) | VUint (n : Z) | VOther.
(** options.go:8-21, the fields read here. *)
Record toptions := mkTO { to_base : str; to_company : str; to_mail : str; to_extra : gmap str tval }.
(** template.go:24-47: the map the template sees.  [dflt] are the defaults of
    idm (Company, BaseDN, MailDomain).  Simplification: options is not nil. *)
Definition template_vars (dflt m : gmap str tval) (o : toptions) : gmap str tval :=
  let set k v m := if is_empty v then m else <[B k := VStr v]> m in
  to_extra o ∪ set "MailDomain"%string (to_mail o) (set "Company"%string (to_company o) (set "BaseDN"%string (to_base o) (m ∪ dflt))).
(** template.go:49-52: the start of the counter; the type assertion panics. *)
Definition counter_start (m : gmap str tval) : res Z :=
  match m !! B "AutoIncrementMin" with
  | None => Ok 1000%Z
  | Some (VUint n) => Ok n
  | Some _ => Panic
  end.
(** template.go:69-76 AutoIncrement: the calls of one template, each with its
    first argument if any, from a counter value to the numbers returned. *)
Fixpoint auto_increment (n : Z) (calls : list (option Z)) : list Z :=
  match calls with
  | [] => []
  | c :: cs =>
      let n' := match c with Some v => v | None => ((n + 1) mod 2 ^ 64)%Z end in
      n' :: auto_increment n' cs
  end.
