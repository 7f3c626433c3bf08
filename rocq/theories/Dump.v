(** Model of the script that prints data for text2pcap (resources/pydump.py).

    The data the script prints is the string assigned last before the loop; the
    script is meant to be edited there, so the model takes it as an argument. *)
From Verif Require Import Py.
Open Scope Z_scope.

(** ["%06x" % n] for [n >= 0] (pydump.py 108). *)
Definition hex06 (n : Z) : list Z :=
  repeat 48 (6 - length (py_hex n)) ++ py_hex n.

(** pydump.py 103-108: one line of output with its newline; [unpack('B', c)] is the
    octet [c]. *)
Definition dump_line (offset : Z) (line : list Z) : list Z :=
  hex06 offset ++ concat (map (fun c => 32 :: hex02 c) line) ++ [10].

(** pydump.py 92: octets per line. *)
Definition perline : Z := 8.

(** pydump.py 94-110: the loop; at most one round per octet, so the fuel of [dump]
    does not run out (C110). *)
Fixpoint dump_loop (fuel : nat) (offset : Z) (data : list Z) : list Z :=
  match fuel with
  | O => []
  | S f =>
      if zlen data <=? offset then []
      else
        let stop := if zlen data <? offset + perline then zlen data else offset + perline in
        dump_line offset (py_slice data offset stop) ++ dump_loop f (offset + perline) data
  end.

(** pydump.py 90-110: what the script writes. *)
Definition dump (data : list Z) : list Z := dump_loop (S (length data)) 0 data.
