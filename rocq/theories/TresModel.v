(** TresModel.v: the resolution of types, TypeIO of /repo/postgresql/driver/pq3.py, and process_tuple of
    /repo/postgresql/python/functools.py *)
From Verif Require Import PyStr PyDict PyDictProof IterModel TypeIOModel ArrayModel.
Notation bytes := (list Z) (only parsing).

(** python/functools.py:35-62 process_tuple: [None] items are not processed; the exception handler is given the position and the
    exception, and what it raises is raised *)
Section ProcessTuple.
Context {A B : Type}.
Fixpoint process_items (procs : list (A -> res B)) (tup : list (option A)) (handler : nat -> exn -> exn) (i : nat) : res (list (option B)) :=
  match procs, tup with
  | p :: procs, x :: tup =>
      match (match x with None => Ok None | Some x => do y <- p x; Ok (Some y) end) with
      | Err e => Err (handler i e)
      | Ok y => do r <- process_items procs tup handler (S i); Ok (y :: r)
      end
  | _, _ => Ok []
  end.
Definition process_tuple (procs : list (A -> res B)) (tup : list (option A)) (handler : nat -> exn -> exn) : res (list (option B)) :=
  if (length tup =? length procs)%nat then process_items procs tup handler 0 else Err TypeError.
(** python/functools.py:64-65 process_chunk *)
Definition process_chunk (procs : list (A -> res B)) (tups : list (list (option A))) (handler : nat -> exn -> exn) : res (list (list (option B))) :=
  mapM (fun t => process_tuple procs t handler) tups.
End ProcessTuple.

Section Tres.
(** Python's objects other than those below *)
Context {B : Type}.
(** the objects the drivers looks into: VArr: types.Array (elements, lower bounds, upper bounds, dimensions), VRow: types.Row *)
Inductive pv :=
| VNone | VBase (b : B) | VList (l : list pv) | VTuple (l : list pv) | VDict (d : list (text * pv))
| VArr (es : list pv) (lower upper dims : list Z) | VRow (keymap : list (text * Z)) (vs : list pv).
(** what iterating over, or taking the length of, another object gives *)
Context (iter_other : pv -> res (list pv)) (chars_other : pv -> option (list pv)).
Definition tuple_of (v : pv) : res (list pv) := match v with VList l | VTuple l | VRow _ l => Ok l | _ => iter_other v end.
Definition chars (v : pv) : option (list pv) := match v with VList l | VTuple l | VRow _ l => Some l | _ => chars_other v end.
Fixpoint to_nest (v : pv) : nest pv := match v with VList l => Node (map to_nest l) | _ => Leaf v end.
Fixpoint of_nest (n : nest pv) : pv := match n with Leaf v => v | Node l => VList (map of_nest l) end.

(** an I/O pair (pack, unpack); None: the string form of the value, encoded *)
Record io := { io_pack : option (pv -> res bytes); io_unpack : option (bytes -> res pv) }.
Context (encode : pv -> res bytes) (decode : bytes -> res pv).
Definition strio : io := {| io_pack := None; io_unpack := None |}.
(** driver/pq3.py:194-198 resolve_pack, resolve_unpack, and 284, 303-304: `or self.encode`, `or self.decode` *)
Definition pack_of (i : io) : pv -> res bytes := match io_pack i with Some f => f | None => encode end.
Definition unpack_of (i : io) : bytes -> res pv := match io_unpack i with Some f => f | None => decode end.

(** driver/pq3.py:350-358 array_parts: elements, dimensions, lower bounds *)
Definition array_parts (v : pv) : res (list pv * list Z * list Z) :=
  match v with
  | VArr es lower _ dims => Ok (es, dims, lower)
  | _ => do l <- tuple_of v; do a <- from_nest chars (map to_nest l); Ok (map of_nest (a_elements a), a_dims a, a_lower a)
  end.
(** 360-366 array_from_parts *)
Definition array_from_parts (es : list pv) (dims lower : list Z) : res pv :=
  do a <- from_elements (map Leaf es) (Some lower) (Some (map (fun p => fst p + snd p - 1) (combine dims lower)));
  Ok (VArr (map of_nest (a_elements a)) (a_lower a) (a_upper a) (a_dims a)).
(** 382, 394: x if x is None else pack_element(x) *)
Definition null_pack (f : pv -> res bytes) (x : pv) : res (option bytes) :=
  match x with VNone => Ok None | _ => do b <- f x; Ok (Some b) end.
Definition null_unpack (f : bytes -> res pv) (x : option bytes) : res pv :=
  match x with None => Ok VNone | Some b => f b end.
(** 378-384 pack_an_array *)
Definition pack_an_array (pe : pv -> res bytes) (typoid : Z) (v : pv) : res bytes :=
  do (es, dims, lower) <- array_parts v;
  do bs <- mapM (null_pack pe) es;
  array_pack {| aflags := 0; atypid := typoid; adims := dims; albs := lower; aelems := bs |}.
(** 390-392 unpack_an_array *)
Definition unpack_an_array (ue : bytes -> res pv) (data : bytes) : res pv :=
  do a <- array_unpack (S (length data)) data;
  do es <- mapM (null_unpack ue) (aelems a);
  array_from_parts es (adims a) (albs a).
(** 371-397 array_io_factory *)
Definition array_io_factory (te : io) (typoid : Z) (hasbin_input hasbin_output : bool) : io :=
  {| io_pack := if hasbin_input then Some (pack_an_array (pack_of te) typoid) else None;
     io_unpack := if hasbin_output then Some (unpack_an_array (unpack_of te)) else None |}.

(** 419-443: what the handlers raise tells the attribute *)
Definition attribute_error (i : nat) (_ : exn) : exn := OtherError (Z.of_nat i).
Definition opt (v : pv) : option pv := match v with VNone => None | _ => Some v end.
Definition unopt (v : option pv) : pv := match v with None => VNone | Some v => v end.
Definition dict_get (d : list (text * pv)) (k : text) : pv := match dget k d with Some v => v | None => VNone end.
(** 453-466 pack_a_record *)
Definition pack_a_record (fpack : list (pv -> res bytes)) (typids : list Z) (attmap : list (text * Z)) (v : pv) : res bytes :=
  do data <- (match v with
              | VDict d => Ok (map (fun p => dict_get d (fst p)) (sort_cols attmap))
              | _ => tuple_of v
              end);
  do r <- process_tuple fpack (map opt data) attribute_error;
  record_pack (combine typids r).
(** 445-451 unpack_a_record *)
Definition unpack_a_record (funpack : list (bytes -> res pv)) (attmap : list (text * Z)) (data : bytes) : res pv :=
  do l <- record_unpack data;
  do r <- process_tuple funpack (map snd l) attribute_error;
  Ok (VRow attmap (map unopt r)).
(** 405-467 record_io_factory *)
Definition record_io_factory (cio : list io) (typids : list Z) (attmap : list (text * Z)) : io :=
  {| io_pack := Some (pack_a_record (map pack_of cio) typids attmap);
     io_unpack := Some (unpack_a_record (map unpack_of cio) attmap) |}.
(** 482-492 _unpack_record; [anon]: self.resolve at the time the data is unpacked *)
Definition unpack_anonymous (anon : Z -> res io) (data : bytes) : res pv :=
  do record <- record_unpack data;
  do colio <- mapM (fun x => anon (fst x)) record;
  do r <- process_tuple (map unpack_of colio) (map snd record) attribute_error;
  Ok (VTuple (map unopt r)).
(** 469-494 anon_record_io_factory *)
Definition anon_record_io_factory (anon : Z -> res io) : io := {| io_pack := None; io_unpack := Some (unpack_anonymous anon) |}.

(** what sys.lookup_type gives (lib/libsys.sql:6-26); [t_ae]: has the element type, if it exists, binary input and output functions *)
Record typinfo := { t_namespace : text; t_name : text; t_type : Z; t_elem : Z; t_relid : Z; t_ae : option (bool * bool) }.
(** the catalog as queried: [lookup_composite] (libsys.sql:28-41) gives the types and names of the attributes and whether the type is a
    domain, [lookup_base] (76-83) pg_type.typbasetype, [lookup_base_recursive] (43-74) the end of that chain *)
Record catalog := {
  lookup_type : Z -> res (option typinfo);
  lookup_composite : Z -> res (list (Z * text * bool));
  lookup_base : Z -> res Z;
  lookup_base_recursive : Z -> res Z;
  since_84 : bool }.
(** types/io/__init__.py:92-113 resolve, and pq3.py:244-247: the pair made for this connection *)
Context (builtins : Z -> option io).
(** 147-168 lookup_domain_basetype; the fuel bounds the loop of versions before 8.4 *)
Fixpoint base_loop (cat : catalog) (fuel : nat) (typid : Z) : res Z :=
  match fuel with
  | O => Err OutOfFuel
  | S fuel => if typid =? 0 then Err TypeError else do r <- lookup_base cat typid; if r =? 0 then Ok typid else base_loop cat fuel r
  end.
Definition lookup_domain_basetype (cat : catalog) (fuel : nat) (typid : Z) : res Z :=
  if since_84 cat then lookup_base_recursive cat typid else base_loop cat fuel typid.

(** the dictionary _cache *)
Definition cache := list (Z * io).
Fixpoint zget (k : Z) (d : cache) : option io := match d with [] => None | (k', v) :: d => if k =? k' then Some v else zget k d end.
(** 125-140: the types sent as text whatever the catalog says *)
Definition zset (k : Z) (v : io) (d : cache) : cache := (k, v) :: d.
Definition string_oids : list Z := [1033; 19; 1042; 1043; 2275; 25; 2206; 24; 2202; 2203; 2204; 2205].
Definition cache0 : cache := map (fun o => (o, strio)) string_oids.
(** a loop with the cache as its state *)
Fixpoint mapS {X Y} (f : cache -> X -> cache * res Y) (st : cache) (l : list X) : cache * res (list Y) :=
  match l with
  | [] => (st, Ok [])
  | x :: l =>
      match f st x with
      | (st, Err e) => (st, Err e)
      | (st, Ok y) => match mapS f st l with (st, Err e) => (st, Err e) | (st, Ok ys) => (st, Ok (y :: ys)) end
      end
  end.
Definition att_type (x : Z * text * bool) : Z := fst (fst x).
Definition att_name (x : Z * text * bool) : text := snd (fst x).
Definition att_domain (x : Z * text * bool) : bool := snd x.
(** 224-332 resolve.  Simplifications: the names of types kept for messages (typinfo) are left out, as is the third member of the tuples;
    the lookups do not change the state.  The fuel bounds the depth of types *)
Fixpoint resolve (cat : catalog) (anon : Z -> res io) (fuel : nat) (st : cache) (typid : Z) (from : list Z) : cache * res io :=
  match fuel with
  | O => (st, Err OutOfFuel)
  | S fuel' =>
      if existsb (Z.eqb typid) from then (st, Err TypeError)
      else match zget typid st with
      | Some i => (st, Ok i)
      | None =>
      match builtins typid with
      | Some i => (zset typid i st, Ok i)
      | None =>
      match lookup_type cat typid with
      | Err e => (st, Err e)
      | Ok None => (st, Ok strio)
      | Ok (Some ti) =>
          if negb (t_relid ti =? 0) then
            match lookup_composite cat (t_relid ti) with
            | Err e => (st, Err e)
            | Ok atts =>
                let f st x :=
                  match (if att_domain x then lookup_domain_basetype cat fuel (att_type x) else Ok (att_type x)) with
                  | Err e => (st, Err e)
                  | Ok t => resolve cat anon fuel' st t (from ++ [typid])
                  end in
                match mapS f st atts with
                | (st, Err e) => (st, Err e)
                | (st, Ok cio) =>
                    let i := record_io_factory cio (map att_type atts) (attribute_map (map att_name atts)) in
                    (zset typid i st, Ok i)
                end
            end
          else match t_ae ti with
          | Some (bi, bo) =>
              match resolve cat anon fuel' st (t_elem ti) (from ++ [typid]) with
              | (st, Err e) => (st, Err e)
              | (st, Ok te) => let i := array_io_factory te (t_elem ti) bi bo in (zset typid i st, Ok i)
              end
          | None =>
              if t_type ti =? 100 then
                match lookup_domain_basetype cat fuel typid with
                | Err e => (st, Err e)
                | Ok b =>
                    match resolve cat anon fuel' st b (from ++ [typid]) with
                    | (st, Err e) => (st, Err e)
                    | (st, Ok i) => (zset typid i st, Ok i)
                    end
                end
              else if (t_type ti =? 112) && seqb (t_namespace ti) (str "pg_catalog") && seqb (t_name ti) (str "record") then
                let i := anon_record_io_factory anon in (zset typid i st, Ok i)
              else (zset typid strio st, Ok strio)
          end
      end
      end
      end
  end.
(** the self.resolve used by anonymous records, the data of which may contain anonymous records; simplification: it starts from the cache
    [c], not from that of the moment of use (the pairs do not depend on it) *)
Fixpoint resolver (cat : catalog) (c : cache) (fuel : nat) (depth : nat) (typid : Z) : res io :=
  match depth with
  | O => Err OutOfFuel
  | S depth => snd (resolve cat (resolver cat c fuel depth) fuel c typid [])
  end.
(** 334-348 identify: the pairs of the named modules are assigned to types *)
Definition identify (st : cache) (l : list (Z * io)) : cache := fold_left (fun st p => zset (fst p) (snd p) st) l st.
(** the uses of a connection: types are resolved one after the other *)
Fixpoint resolves (cat : catalog) (anon : Z -> res io) (fuel : nat) (st : cache) (l : list Z) : cache :=
  match l with [] => st | o :: l => resolves cat anon fuel (fst (resolve cat anon fuel st o [])) l end.
End Tres.
Arguments pv : clear implicits.
Arguments io : clear implicits.
