(** Packets as bytes: the basic encoding rules (X.690) with definite lengths and
    tags below 31, as the asn1-ber library (external, not in /repo) writes and
    reads them.  Definitions only. *)
From Verif Require Import Bytes Text Dn Res Entry Db Packet.

(** * Writing *)

(** The last [n] bytes of a number, the most significant first. *)
Fixpoint be (n : nat) (v : N) : str :=
  match n with
  | O => []
  | S n' => ascii_of_N (v / 256 ^ N.of_nat n' mod 256) :: be n' v
  end.
(** Length octets (X.690, 8.1.3): one byte below 128, else the number of bytes and
    the bytes. *)
Definition octets (v : N) : nat := N.to_nat ((N.size v + 7) / 8).
Definition len_bytes (v : N) : str :=
  if (v <? 128)%N then [ascii_of_N v] else ascii_of_N (128 + N.of_nat (octets v)) :: be (octets v) v.
(** Integers (X.690, 8.3): the shortest two's complement. *)
Definition int_octets (z : Z) : nat :=
  N.to_nat ((N.size (Z.to_N (if z <? 0 then - z - 1 else z)%Z) + 8) / 8).
Definition int_bytes (z : Z) : str := be (int_octets z) (Z.to_N (z mod 2 ^ (8 * Z.of_nat (int_octets z)))).
(** ber.Packet.Bytes: identifier, length, content; the content of a constructed
    packet is in Data too, since AppendChild puts it there. *)
Definition p_bytes (p : packet) : str :=
  let 'Pkt c con t _ d _ := p in
  ascii_of_N (c + (if con then 32 else 0) + t) :: len_bytes (N.of_nat (length d)) ++ d.

(** ber.Encode without value, AppendChild, NewInteger and NewString. *)
Definition ber_encode (cls : N) (con : bool) (tag : N) : packet := Pkt cls con tag VNil [] [].
Definition append_child (p c : packet) : packet :=
  let 'Pkt cls con tag v d k := p in Pkt cls con tag v (d ++ p_bytes c) (k ++ [c]).
Definition new_integer (cls tag : N) (z : Z) : packet := Pkt cls false tag (VInt z) (int_bytes z) [].
Definition new_string (cls tag : N) (s : str) : packet := Pkt cls false tag (VStr s) s [].

(** * Reading *)

Fixpoint unbe (acc : N) (s : str) : N :=
  match s with
  | [] => acc
  | c :: s' => unbe (acc * 256 + code c) s'
  end.
Definition read_len (s : str) : option (N * str) :=
  match s with
  | [] => None
  | c :: s' =>
      if (code c <? 128)%N then Some (code c, s')
      else
        let k := N.to_nat (code c - 128) in
        (* 0 would be the indefinite form; more than eight bytes are refused *)
        if (k =? 0) || (8 <? k) || (length s' <? k) then None
        else Some (unbe 0 (take k s'), drop k s')
  end.
Definition signed (s : str) : Z :=
  match s with
  | [] => 0
  | c :: _ =>
      let v := Z.of_N (unbe 0 s) in
      if (code c <? 128)%N then v else (v - 2 ^ (8 * Z.of_nat (length s)))%Z
  end.
(** The dynamic value of a primitive packet; integers of more than eight bytes
    give zero.  Simplification: the other universal types are [VOther]. *)
Definition value_of (cls tag : N) (d : str) : value :=
  let int := if 8 <? length d then 0%Z else signed d in
  if (cls =? 0)%N then
    if (tag =? 1)%N then VBool (negb (int =? 0)%Z)
    else if ((tag =? 2) || (tag =? 10))%N then VInt int
    else if (tag =? 4)%N then VStr d
    else VOther
  else VNil.
(** ber.ReadPacket: a packet and what follows it; None if there is none, or more
    is needed.  Simplification: indefinite lengths and tags from 31, which the
    library also reads, are refused here. *)
Fixpoint read (fuel : nat) (s : str) : option (packet * str) :=
  match fuel with
  | O => None
  | S f =>
      match s with
      | [] => None
      | c :: s1 =>
          let cls := (code c / 64 * 64)%N in
          let tag := (code c mod 32)%N in
          if (tag =? 31)%N then None
          else match read_len s1 with
               | None => None
               | Some (n, s2) =>
                   if (N.of_nat (length s2) <? n)%N then None
                   else
                     let d := take (N.to_nat n) s2 in
                     let rest := drop (N.to_nat n) s2 in
                     if (code c / 32 mod 2 =? 1)%N then
                       match read_all f d with
                       | Some kids => Some (Pkt cls true tag VNil (List.concat (map p_bytes kids)) kids, rest)
                       | None => None
                       end
                     else Some (Pkt cls false tag (value_of cls tag d) d [], rest)
               end
      end
  end
with read_all (fuel : nat) (s : str) : option (list packet) :=
  match fuel with
  | O => None
  | S f =>
      match s with
      | [] => Some []
      | _ => match read f s with
             | Some (p, s') => match read_all f s' with Some ps => Some (p :: ps) | None => None end
             | None => None
             end
      end
  end.
Definition read_packet (s : str) : option (packet * str) := read (2 * length s) s.

(** A packet with all its content octets, as it is read back: constructed packets
    hold the bytes of their children, integers and booleans theirs. *)
Fixpoint full (p : packet) : packet :=
  let 'Pkt c con t v d k := p in
  if con then let k' := map full k in Pkt c true t VNil (List.concat (map p_bytes k')) k'
  else
    let d' := match v with
              | VInt z => int_bytes z
              | VBool b => [if b then "255"%char else "000"%char]
              | _ => d
              end in
    Pkt c false t v d' [].
