#!/usr/bin/env python3
"""Prints the table of BTH opcode texts for rocq/theories/Opcodes.v, written down from the
InfiniBand list of transport services and operations (not from the model)."""
rc = ["SEND First","SEND Middle","SEND Last","SEND Last with Immediate","SEND Only",
      "SEND Only with Immediate","RDMA WRITE First","RDMA WRITE Middle","RDMA WRITE Last",
      "RDMA WRITE Last with Immediate","RDMA WRITE Only","RDMA WRITE Only with Immediate",
      "RDMA READ Request","RDMA READ response First","RDMA READ response Middle",
      "RDMA READ response Last","RDMA READ response Only","Acknowledge","ATOMIC Acknowledge",
      "CmpSwap","FetchAdd"]
ops = {
 0: ("RC", dict(list(enumerate(rc)) + [(22,"SEND Last with Invalidate"),(23,"SEND Only with Invalidate")])),
 1: ("UC", dict(enumerate(rc[:12]))),
 2: ("RD", dict(list(enumerate(rc)) + [(21,"RESYNC")])),
 3: ("UD", {4: "SEND Only", 5: "SEND Only with Immediate"}),
 4: ("CNP", {0: "CNP"}),
 5: ("XRC", dict(list(enumerate(rc)) + [(22,"SEND Last with Invalidate"),(23,"SEND Only with Invalidate")])),
}
rows = []
for o in range(256):
    s, op = o >> 5, o & 31
    name = "Manufacturer Specific" if s > 5 else ops[s][0] + " " + ops[s][1].get(op, "Reserved")
    rows.append('   "0b%s (%s)"' % (bin(o)[2:], name))
print("""(** * Opcodes: the texts of the 256 BTH opcodes. Specification only.

    Generated by tools/gen_opcodes.py from the InfiniBand transport services (top three
    bits) and operations (low five bits). *)

From Coq Require Import String List.
Import ListNotations.
Local Open Scope string_scope.

Definition opcode_texts : list string :=
  [
%s
  ].

Example opcode_texts_256 : List.length opcode_texts = 256.
Proof. reflexivity. Qed.""" % ";\n".join(rows))
