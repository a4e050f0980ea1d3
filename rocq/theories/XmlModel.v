(** XmlModel.v: /repo/postgresql/types/io/stdlib_xml_etree.py (the branch for an etree with tostringlist, i.e. Python 3.2 and
    later) with Python's own UTF-8 codec and xml.etree.ElementTree. *)
From Verif Require Import Base PyStr.
Open Scope Z_scope.
Notation bytes := (list Z).

(** Python's str.encode('utf-8') of one character (strict): UnicodeEncodeError for surrogates *)
Definition utf8_char (c : Z) : res bytes :=
  if c <? 128 then Ok [c]
  else if c <? 2048 then Ok [192 + c / 64; 128 + c mod 64]
  else if (55296 <=? c) && (c <? 57344) then Err ValueError
  else if c <? 65536 then Ok [224 + c / 4096; 128 + c / 64 mod 64; 128 + c mod 64]
  else Ok [240 + c / 262144; 128 + c / 4096 mod 64; 128 + c / 64 mod 64; 128 + c mod 64].
(** str.encode('utf-8') *)
Definition utf8_encode (t : text) : res bytes := do l <- mapM utf8_char t; Ok (concat l).
Definition cont (b : Z) : bool := (128 <=? b) && (b <? 192).
(** bytes.decode('utf-8') (strict): overlong forms, surrogates and numbers beyond 10FFFF are UnicodeDecodeErrors *)
Fixpoint utf8_decode (b : bytes) : res text :=
  match b with
  | [] => Ok []
  | b1 :: r =>
      if b1 <? 128 then do t <- utf8_decode r; Ok (b1 :: t)
      else if b1 <? 194 then Err ValueError
      else if b1 <? 224 then
        match r with
        | b2 :: r => if cont b2 then do t <- utf8_decode r; Ok ((b1 - 192) * 64 + (b2 - 128) :: t) else Err ValueError
        | _ => Err ValueError
        end
      else if b1 <? 240 then
        match r with
        | b2 :: b3 :: r =>
            let c := (b1 - 224) * 4096 + (b2 - 128) * 64 + (b3 - 128) in
            if cont b2 && cont b3 && (2048 <=? c) && negb ((55296 <=? c) && (c <? 57344)) then do t <- utf8_decode r; Ok (c :: t)
            else Err ValueError
        | _ => Err ValueError
        end
      else if b1 <? 245 then
        match r with
        | b2 :: b3 :: b4 :: r =>
            let c := (b1 - 240) * 262144 + (b2 - 128) * 4096 + (b3 - 128) * 64 + (b4 - 128) in
            if cont b2 && cont b3 && cont b4 && (65536 <=? c) && (c <? 1114112) then do t <- utf8_decode r; Ok (c :: t)
            else Err ValueError
        | _ => Err ValueError
        end
      else Err ValueError
  end.

Section xml.
(** what of xml.etree is used: tostring(x, encoding = 'utf-8') decoded (None: no Element), XML(text) (None: ParseError, or
    whatever it raises), list(element) *)
Context {elem : Type} (tostring : elem -> text) (XML : text -> option elem) (children : elem -> list elem).
(** the codec of the session: typio.encode and typio.decode, pq3.py:176-180 *)
Context (encode : text -> res bytes) (decode : bytes -> res text).

(** items of a tuple: a str, an Element, or anything else *)
Inductive item := IStr (t : text) | IElem (e : elem) | IOther.
Inductive value := VBytes (b : bytes) | VStr (t : text) | VTuple (l : list item) | VElem (e : elem) | VOther.

(** tostr(x, encoding = "utf-8"); an object that is no Element has no attribute iter or tag *)
Definition tostr (x : item) : res bytes := match x with IElem e => utf8_encode (tostring e) | _ => Err AttributeError end.
(** stdlib_xml_etree.py:59-63 an item of the tuple *)
Definition item_bytes (x : item) : res bytes := match x with IStr t => utf8_encode t | _ => tostr x end.
(** :72-75 *)
Definition recode (encoding : text) (x : bytes) : res bytes :=
  if seqb encoding (str "utf8") || seqb encoding (str "utf-8") then Ok x else do t <- utf8_decode x; encode t.
(** :43-75 xml_pack *)
Definition xml_pack (encoding : text) (x : value) : res bytes :=
  match x with
  | VBytes b => Ok b
  | VStr t => encode t
  | VTuple l => do bs <- mapM item_bytes l; recode encoding (concat bs)
  | VElem e => do b <- tostr (IElem e); recode encoding b
  | VOther => do b <- tostr IOther; recode encoding b
  end.

(** what a received value becomes: an Element or a tuple of them *)
Inductive received := RElem (e : elem) | RTuple (l : list elem).
(** :15-20 xml_unpack; ParseError as ValueError *)
Definition xml_unpack (t : text) : res received :=
  match XML t with
  | Some e => Ok (RElem e)
  | None => match XML (str "<x>" ++ t ++ str "</x>") with Some w => Ok (RTuple (children w)) | None => Err ValueError end
  end.
(** :77-80 xml_io_factory: c((typio.decode, xml_unpack)) *)
Definition xml_io_pack (encoding : text) (x : value) : res bytes := xml_pack encoding x.
Definition xml_io_unpack (d : bytes) : res received := do t <- decode d; xml_unpack t.
End xml.
