(** * Opcodes: the texts of the 256 BTH opcodes. Specification only.

    Generated by tools/gen_opcodes.py from the InfiniBand transport services (top three
    bits) and operations (low five bits). *)

From Coq Require Import String List.
Import ListNotations.
Local Open Scope string_scope.

Definition opcode_texts : list string :=
  [
   "0b0 (RC SEND First)";
   "0b1 (RC SEND Middle)";
   "0b10 (RC SEND Last)";
   "0b11 (RC SEND Last with Immediate)";
   "0b100 (RC SEND Only)";
   "0b101 (RC SEND Only with Immediate)";
   "0b110 (RC RDMA WRITE First)";
   "0b111 (RC RDMA WRITE Middle)";
   "0b1000 (RC RDMA WRITE Last)";
   "0b1001 (RC RDMA WRITE Last with Immediate)";
   "0b1010 (RC RDMA WRITE Only)";
   "0b1011 (RC RDMA WRITE Only with Immediate)";
   "0b1100 (RC RDMA READ Request)";
   "0b1101 (RC RDMA READ response First)";
   "0b1110 (RC RDMA READ response Middle)";
   "0b1111 (RC RDMA READ response Last)";
   "0b10000 (RC RDMA READ response Only)";
   "0b10001 (RC Acknowledge)";
   "0b10010 (RC ATOMIC Acknowledge)";
   "0b10011 (RC CmpSwap)";
   "0b10100 (RC FetchAdd)";
   "0b10101 (RC Reserved)";
   "0b10110 (RC SEND Last with Invalidate)";
   "0b10111 (RC SEND Only with Invalidate)";
   "0b11000 (RC Reserved)";
   "0b11001 (RC Reserved)";
   "0b11010 (RC Reserved)";
   "0b11011 (RC Reserved)";
   "0b11100 (RC Reserved)";
   "0b11101 (RC Reserved)";
   "0b11110 (RC Reserved)";
   "0b11111 (RC Reserved)";
   "0b100000 (UC SEND First)";
   "0b100001 (UC SEND Middle)";
   "0b100010 (UC SEND Last)";
   "0b100011 (UC SEND Last with Immediate)";
   "0b100100 (UC SEND Only)";
   "0b100101 (UC SEND Only with Immediate)";
   "0b100110 (UC RDMA WRITE First)";
   "0b100111 (UC RDMA WRITE Middle)";
   "0b101000 (UC RDMA WRITE Last)";
   "0b101001 (UC RDMA WRITE Last with Immediate)";
   "0b101010 (UC RDMA WRITE Only)";
   "0b101011 (UC RDMA WRITE Only with Immediate)";
   "0b101100 (UC Reserved)";
   "0b101101 (UC Reserved)";
   "0b101110 (UC Reserved)";
   "0b101111 (UC Reserved)";
   "0b110000 (UC Reserved)";
   "0b110001 (UC Reserved)";
   "0b110010 (UC Reserved)";
   "0b110011 (UC Reserved)";
   "0b110100 (UC Reserved)";
   "0b110101 (UC Reserved)";
   "0b110110 (UC Reserved)";
   "0b110111 (UC Reserved)";
   "0b111000 (UC Reserved)";
   "0b111001 (UC Reserved)";
   "0b111010 (UC Reserved)";
   "0b111011 (UC Reserved)";
   "0b111100 (UC Reserved)";
   "0b111101 (UC Reserved)";
   "0b111110 (UC Reserved)";
   "0b111111 (UC Reserved)";
   "0b1000000 (RD SEND First)";
   "0b1000001 (RD SEND Middle)";
   "0b1000010 (RD SEND Last)";
   "0b1000011 (RD SEND Last with Immediate)";
   "0b1000100 (RD SEND Only)";
   "0b1000101 (RD SEND Only with Immediate)";
   "0b1000110 (RD RDMA WRITE First)";
   "0b1000111 (RD RDMA WRITE Middle)";
   "0b1001000 (RD RDMA WRITE Last)";
   "0b1001001 (RD RDMA WRITE Last with Immediate)";
   "0b1001010 (RD RDMA WRITE Only)";
   "0b1001011 (RD RDMA WRITE Only with Immediate)";
   "0b1001100 (RD RDMA READ Request)";
   "0b1001101 (RD RDMA READ response First)";
   "0b1001110 (RD RDMA READ response Middle)";
   "0b1001111 (RD RDMA READ response Last)";
   "0b1010000 (RD RDMA READ response Only)";
   "0b1010001 (RD Acknowledge)";
   "0b1010010 (RD ATOMIC Acknowledge)";
   "0b1010011 (RD CmpSwap)";
   "0b1010100 (RD FetchAdd)";
   "0b1010101 (RD RESYNC)";
   "0b1010110 (RD Reserved)";
   "0b1010111 (RD Reserved)";
   "0b1011000 (RD Reserved)";
   "0b1011001 (RD Reserved)";
   "0b1011010 (RD Reserved)";
   "0b1011011 (RD Reserved)";
   "0b1011100 (RD Reserved)";
   "0b1011101 (RD Reserved)";
   "0b1011110 (RD Reserved)";
   "0b1011111 (RD Reserved)";
   "0b1100000 (UD Reserved)";
   "0b1100001 (UD Reserved)";
   "0b1100010 (UD Reserved)";
   "0b1100011 (UD Reserved)";
   "0b1100100 (UD SEND Only)";
   "0b1100101 (UD SEND Only with Immediate)";
   "0b1100110 (UD Reserved)";
   "0b1100111 (UD Reserved)";
   "0b1101000 (UD Reserved)";
   "0b1101001 (UD Reserved)";
   "0b1101010 (UD Reserved)";
   "0b1101011 (UD Reserved)";
   "0b1101100 (UD Reserved)";
   "0b1101101 (UD Reserved)";
   "0b1101110 (UD Reserved)";
   "0b1101111 (UD Reserved)";
   "0b1110000 (UD Reserved)";
   "0b1110001 (UD Reserved)";
   "0b1110010 (UD Reserved)";
   "0b1110011 (UD Reserved)";
   "0b1110100 (UD Reserved)";
   "0b1110101 (UD Reserved)";
   "0b1110110 (UD Reserved)";
   "0b1110111 (UD Reserved)";
   "0b1111000 (UD Reserved)";
   "0b1111001 (UD Reserved)";
   "0b1111010 (UD Reserved)";
   "0b1111011 (UD Reserved)";
   "0b1111100 (UD Reserved)";
   "0b1111101 (UD Reserved)";
   "0b1111110 (UD Reserved)";
   "0b1111111 (UD Reserved)";
   "0b10000000 (CNP CNP)";
   "0b10000001 (CNP Reserved)";
   "0b10000010 (CNP Reserved)";
   "0b10000011 (CNP Reserved)";
   "0b10000100 (CNP Reserved)";
   "0b10000101 (CNP Reserved)";
   "0b10000110 (CNP Reserved)";
   "0b10000111 (CNP Reserved)";
   "0b10001000 (CNP Reserved)";
   "0b10001001 (CNP Reserved)";
   "0b10001010 (CNP Reserved)";
   "0b10001011 (CNP Reserved)";
   "0b10001100 (CNP Reserved)";
   "0b10001101 (CNP Reserved)";
   "0b10001110 (CNP Reserved)";
   "0b10001111 (CNP Reserved)";
   "0b10010000 (CNP Reserved)";
   "0b10010001 (CNP Reserved)";
   "0b10010010 (CNP Reserved)";
   "0b10010011 (CNP Reserved)";
   "0b10010100 (CNP Reserved)";
   "0b10010101 (CNP Reserved)";
   "0b10010110 (CNP Reserved)";
   "0b10010111 (CNP Reserved)";
   "0b10011000 (CNP Reserved)";
   "0b10011001 (CNP Reserved)";
   "0b10011010 (CNP Reserved)";
   "0b10011011 (CNP Reserved)";
   "0b10011100 (CNP Reserved)";
   "0b10011101 (CNP Reserved)";
   "0b10011110 (CNP Reserved)";
   "0b10011111 (CNP Reserved)";
   "0b10100000 (XRC SEND First)";
   "0b10100001 (XRC SEND Middle)";
   "0b10100010 (XRC SEND Last)";
   "0b10100011 (XRC SEND Last with Immediate)";
   "0b10100100 (XRC SEND Only)";
   "0b10100101 (XRC SEND Only with Immediate)";
   "0b10100110 (XRC RDMA WRITE First)";
   "0b10100111 (XRC RDMA WRITE Middle)";
   "0b10101000 (XRC RDMA WRITE Last)";
   "0b10101001 (XRC RDMA WRITE Last with Immediate)";
   "0b10101010 (XRC RDMA WRITE Only)";
   "0b10101011 (XRC RDMA WRITE Only with Immediate)";
   "0b10101100 (XRC RDMA READ Request)";
   "0b10101101 (XRC RDMA READ response First)";
   "0b10101110 (XRC RDMA READ response Middle)";
   "0b10101111 (XRC RDMA READ response Last)";
   "0b10110000 (XRC RDMA READ response Only)";
   "0b10110001 (XRC Acknowledge)";
   "0b10110010 (XRC ATOMIC Acknowledge)";
   "0b10110011 (XRC CmpSwap)";
   "0b10110100 (XRC FetchAdd)";
   "0b10110101 (XRC Reserved)";
   "0b10110110 (XRC SEND Last with Invalidate)";
   "0b10110111 (XRC SEND Only with Invalidate)";
   "0b10111000 (XRC Reserved)";
   "0b10111001 (XRC Reserved)";
   "0b10111010 (XRC Reserved)";
   "0b10111011 (XRC Reserved)";
   "0b10111100 (XRC Reserved)";
   "0b10111101 (XRC Reserved)";
   "0b10111110 (XRC Reserved)";
   "0b10111111 (XRC Reserved)";
   "0b11000000 (Manufacturer Specific)";
   "0b11000001 (Manufacturer Specific)";
   "0b11000010 (Manufacturer Specific)";
   "0b11000011 (Manufacturer Specific)";
   "0b11000100 (Manufacturer Specific)";
   "0b11000101 (Manufacturer Specific)";
   "0b11000110 (Manufacturer Specific)";
   "0b11000111 (Manufacturer Specific)";
   "0b11001000 (Manufacturer Specific)";
   "0b11001001 (Manufacturer Specific)";
   "0b11001010 (Manufacturer Specific)";
   "0b11001011 (Manufacturer Specific)";
   "0b11001100 (Manufacturer Specific)";
   "0b11001101 (Manufacturer Specific)";
   "0b11001110 (Manufacturer Specific)";
   "0b11001111 (Manufacturer Specific)";
   "0b11010000 (Manufacturer Specific)";
   "0b11010001 (Manufacturer Specific)";
   "0b11010010 (Manufacturer Specific)";
   "0b11010011 (Manufacturer Specific)";
   "0b11010100 (Manufacturer Specific)";
   "0b11010101 (Manufacturer Specific)";
   "0b11010110 (Manufacturer Specific)";
   "0b11010111 (Manufacturer Specific)";
   "0b11011000 (Manufacturer Specific)";
   "0b11011001 (Manufacturer Specific)";
   "0b11011010 (Manufacturer Specific)";
   "0b11011011 (Manufacturer Specific)";
   "0b11011100 (Manufacturer Specific)";
   "0b11011101 (Manufacturer Specific)";
   "0b11011110 (Manufacturer Specific)";
   "0b11011111 (Manufacturer Specific)";
   "0b11100000 (Manufacturer Specific)";
   "0b11100001 (Manufacturer Specific)";
   "0b11100010 (Manufacturer Specific)";
   "0b11100011 (Manufacturer Specific)";
   "0b11100100 (Manufacturer Specific)";
   "0b11100101 (Manufacturer Specific)";
   "0b11100110 (Manufacturer Specific)";
   "0b11100111 (Manufacturer Specific)";
   "0b11101000 (Manufacturer Specific)";
   "0b11101001 (Manufacturer Specific)";
   "0b11101010 (Manufacturer Specific)";
   "0b11101011 (Manufacturer Specific)";
   "0b11101100 (Manufacturer Specific)";
   "0b11101101 (Manufacturer Specific)";
   "0b11101110 (Manufacturer Specific)";
   "0b11101111 (Manufacturer Specific)";
   "0b11110000 (Manufacturer Specific)";
   "0b11110001 (Manufacturer Specific)";
   "0b11110010 (Manufacturer Specific)";
   "0b11110011 (Manufacturer Specific)";
   "0b11110100 (Manufacturer Specific)";
   "0b11110101 (Manufacturer Specific)";
   "0b11110110 (Manufacturer Specific)";
   "0b11110111 (Manufacturer Specific)";
   "0b11111000 (Manufacturer Specific)";
   "0b11111001 (Manufacturer Specific)";
   "0b11111010 (Manufacturer Specific)";
   "0b11111011 (Manufacturer Specific)";
   "0b11111100 (Manufacturer Specific)";
   "0b11111101 (Manufacturer Specific)";
   "0b11111110 (Manufacturer Specific)";
   "0b11111111 (Manufacturer Specific)"
  ].

Example opcode_texts_256 : List.length opcode_texts = 256.
Proof. reflexivity. Qed.
