(** How text2pcap reads a dump (option -o hex): lines of an offset in hexadecimal
    and octets of two hexadecimal digits, each after a blank; the offset of each
    line is the number of octets before it. *)
From Verif Require Import Py SpecDeliver.
Open Scope Z_scope.

(** The lines of a text in which every line ends in a newline. *)
Fixpoint text_lines (cur : list Z) (t : list Z) : option (list (list Z)) :=
  match t with
  | [] => match cur with [] => Some [] | _ => None end
  | c :: r =>
      if c =? 10 then option_map (cons cur) (text_lines [] r)
      else text_lines (cur ++ [c]) r
  end.

(** A number in hexadecimal, and what follows it. *)
Fixpoint read_number (n : Z) (l : list Z) : Z * list Z :=
  match l with
  | c :: r => match hex_value c with Some v => read_number (16 * n + v) r | None => (n, l) end
  | [] => (n, [])
  end.

Fixpoint read_octets (l : list Z) : option (list Z) :=
  match l with
  | [] => Some []
  | 32 :: a :: b :: r =>
      match hex_value a, hex_value b, read_octets r with
      | Some h, Some v, Some o => Some (16 * h + v :: o)
      | _, _, _ => None
      end
  | _ => None
  end.

(** The octets of the lines after the first [n] octets. *)
Fixpoint read_lines (n : Z) (ls : list (list Z)) : option (list Z) :=
  match ls with
  | [] => Some []
  | l :: r =>
      let (off, rest) := read_number 0 l in
      if off =? n then
        match read_octets rest with
        | Some o => option_map (app o) (read_lines (n + Z.of_nat (length o)) r)
        | None => None
        end
      else None
  end.

Definition read_dump (t : list Z) : option (list Z) :=
  match text_lines [] t with Some ls => read_lines 0 ls | None => None end.

Example reads_two_lines :
  read_dump (str "000000 00 e0 1e" ++ [10] ++ str "000003 ff" ++ [10]) = Some [0; 224; 30; 255].
Proof. reflexivity. Qed.
Example refuses_a_gap : read_dump (str "000000 00" ++ [10] ++ str "000002 ff" ++ [10]) = None.
Proof. reflexivity. Qed.
