(** ByteaModel.v: /repo/postgresql/encodings/bytea.py *)
From Verif Require Import PyStr PyInt.

(** bytea.py:9-15 ord_to_seq; oct(i)[2:].rjust(3, '0') of a byte is its three octal digits *)
Definition octal3 (i : Z) : text := [48 + i / 64; 48 + i / 8 mod 8; 48 + i mod 8].
Definition ord_to_seq (i : Z) : text :=
  if negb ((32 <? i) && (i <? 126)) then 92 :: octal3 i
  else if i =? 92 then [92; 92] else [i].
(** bytea.py:19-20 decode (bytes -> text) *)
Definition bytea_decode (data : list Z) : text := concat (map ord_to_seq data).

(** bytea.py:25-52 the loop of encode, `next` and the for loop taking from the same
    generator *)
Fixpoint encode_loop (U : unicode) (dv : decimals) (data : text) : res (list Z) :=
  match data with
  | [] => Ok []
  | x :: r =>
      if x =? 92 then
        match r with
        | [] => Err ValueError                                       (* 33-34 *)
        | y :: r1 =>
            if y =? 92 then do o <- encode_loop U dv r1; Ok (92 :: o) (* 35-37 *)
            else if u_digit U y then
              match r1 with
              | a :: b :: r2 =>
                  match py_int U dv 8 [y; a; b] with
                  | Err _ => Err ValueError                          (* 46-47 *)
                  | Ok v => do o <- encode_loop U dv r2; Ok (v :: o)
                  end
              | _ => Err ValueError                                  (* 41-43 *)
              end
            else Err ValueError                                      (* 48-49 *)
        end
      else do o <- encode_loop U dv r; Ok (x :: o)                   (* 51 *)
  end.
(** bytea.py:53 struct.pack('<n>B') *)
Definition bytea_encode (U : unicode) (dv : decimals) (data : text) : res (list Z) :=
  do o <- encode_loop U dv data; if is_bytesb o then Ok o else Err StructError.
