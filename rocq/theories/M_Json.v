(** The operations of nlohmann::json used by z5, with their documented behaviour:
    what throws, what is undefined.  The library itself is not part of /repo; its
    behaviour as written here belongs to the trusted base. *)
From Coq Require Import ZArith String.
From Verif Require Import M_Base M_Double.
Import ListNotations.
Local Open Scope list_scope.
Local Open Scope N_scope.

(** nlohmann::json values (include/z5/metadata.hxx, include/z5/types/types.hxx).
    Simplified: an object is an association list in insertion order instead of a
    sorted map; only look-ups by key are ever compared. *)
Inductive json :=
| JNull
| JBool (b : bool)
| JInt (z : Z)          (* number_integer *)
| JUInt (n : N)         (* number_unsigned *)
| JReal (x : dbl)       (* number_float *)
| JStr (s : string)
| JArr (l : list json)
| JObj (l : list (string * json)).

(** Look-up of a key in an object's entries. *)
Fixpoint jlookup (k : string) (l : list (string * json)) : option json :=
  match l with
  | [] => None
  | (k', v) :: r => if String.eqb k' k then Some v else jlookup k r
  end.
(** Assignment to a key: replaced in place, or added. *)
Fixpoint jupd (k : string) (v : json) (l : list (string * json)) : list (string * json) :=
  match l with
  | [] => [(k, v)]
  | (k', v') :: r => if String.eqb k' k then (k', v) :: r else (k', v') :: jupd k v r
  end.
(** Removal of a key. *)
Fixpoint jdel (k : string) (l : list (string * json)) : list (string * json) :=
  match l with
  | [] => []
  | (k', v') :: r => if String.eqb k' k then jdel k r else (k', v') :: jdel k r
  end.

(** find / contains: never throw; a value that is no object has no keys. *)
Definition jfind (k : string) (j : json) : option json :=
  match j with JObj l => jlookup k l | _ => None end.
Definition jcontains (k : string) (j : json) : bool :=
  match jfind k j with Some _ => true | None => false end.

(** const operator[](key): undefined for a missing key, type_error for anything
    but an object. *)
Definition jidx (k : string) (j : json) : outcome json :=
  match j with
  | JObj l => match jlookup k l with Some v => Ok v | None => UB end
  | _ => Throw EJson
  end.

(** at(key): out_of_range for a missing key, type_error for non-objects. *)
Definition jat (k : string) (j : json) : outcome json :=
  match j with
  | JObj l => match jlookup k l with Some v => Ok v | None => Throw EJson end
  | _ => Throw EJson
  end.

(** j[key] = v: null becomes an object, other non-objects throw. *)
Definition jput (k : string) (v : json) (j : json) : outcome json :=
  match j with
  | JNull => Ok (JObj [(k, v)])
  | JObj l => Ok (JObj (jupd k v l))
  | _ => Throw EJson
  end.

(** j[key][key2] = v for a non-const j: the intermediate value is created as
    null. *)
Definition jput2 (k k2 : string) (v : json) (j : json) : outcome json :=
  match j with
  | JNull => Ok (JObj [(k, JObj [(k2, v)])])
  | JObj l =>
      let! inner := jput k2 v (match jlookup k l with Some x => x | None => JNull end) in
      Ok (JObj (jupd k inner l))
  | _ => Throw EJson
  end.

(** j[key][key2][key3] = v. *)
Definition jput3 (k k2 k3 : string) (v : json) (j : json) : outcome json :=
  match j with
  | JNull => Ok (JObj [(k, JObj [(k2, JObj [(k3, v)])])])
  | JObj l =>
      let! inner := jput2 k2 k3 v (match jlookup k l with Some x => x | None => JNull end) in
      Ok (JObj (jupd k inner l))
  | _ => Throw EJson
  end.

(** erase(key): type_error for non-objects. *)
Definition jerase (k : string) (j : json) : outcome json :=
  match j with
  | JObj l => Ok (JObj (jdel k l))
  | _ => Throw EJson
  end.

(** Range-for over a json value (begin .. end): the elements of an array, the
    values of an object, nothing for null, the value itself otherwise. *)
Definition jelems (j : json) : list json :=
  match j with
  | JNull => []
  | JArr l => l
  | JObj l => map snd l
  | x => [x]
  end.

(** size() *)
Definition jsize (j : json) : N := lenN (jelems j).

(** Wrap of an integer conversion to int (32 bits) and size_t / int64_t (64
    bits). *)
Definition wrap_int (z : Z) : Z := ((z + 2 ^ 31) mod 2 ^ 32 - 2 ^ 31)%Z.

(** get<int>(): any number or a boolean; integers wrap, floating point truncates
    (undefined when out of range). *)
Definition jget_int (j : json) : outcome Z :=
  match j with
  | JInt z => Ok (wrap_int z)
  | JUInt n => Ok (wrap_int (Z.of_N n))
  | JReal x => dbl_to_int (- 2 ^ 31) (2 ^ 31 - 1) x
  | JBool b => Ok (if b then 1 else 0)%Z
  | _ => Throw EJson
  end.

(** get<std::size_t>(), also the implicit conversion used when a ShapeType is
    built from json iterators. *)
Definition jget_size (j : json) : outcome N :=
  match j with
  | JInt z => Ok (Z.to_N (z mod 2 ^ 64))
  | JUInt n => Ok n
  | JReal x => let! z := dbl_to_int 0 (2 ^ 64 - 1) x in Ok (Z.to_N z)
  | _ => Throw EJson
  end.

(** get<double>() *)
Definition jget_double (j : json) : outcome dbl :=
  match j with
  | JInt z => Ok (dbl_of_Z z)
  | JUInt n => Ok (dbl_of_Z (Z.of_N n))
  | JReal x => Ok x
  | _ => Throw EJson
  end.

(** get<std::string>() *)
Definition jget_str (j : json) : outcome string :=
  match j with JStr s => Ok s | _ => Throw EJson end.

(** ShapeType(j.begin(), j.end()) *)
Fixpoint jshape_list (l : list json) : outcome (list N) :=
  match l with
  | [] => Ok []
  | x :: r => let! n := jget_size x in let! ns := jshape_list r in Ok (n :: ns)
  end.
Definition jshape (j : json) : outcome (list N) := jshape_list (jelems j).
(** ShapeType(j.rbegin(), j.rend()) *)
Definition jshape_rev (j : json) : outcome (list N) := jshape_list (rev (jelems j)).
(** json(vector<size_t>) *)
Definition jof_shape (l : list N) : json := JArr (map JUInt l).

(** value(key, default) for int and std::string defaults. *)
Definition jvalue {A} (get : json -> outcome A) (k : string) (d : A) (j : json) : outcome A :=
  match j with
  | JObj l => match jlookup k l with Some v => get v | None => Ok d end
  | _ => Throw EJson
  end.

(** j == "text", j == (an int). *)
Definition jeq_str (j : json) (s : string) : bool :=
  match j with JStr s' => String.eqb s' s | _ => false end.
Definition jeq_int (j : json) (z : Z) : bool :=
  match j with
  | JInt z' => (z' =? z)%Z
  | JUInt n => (Z.of_N n =? z)%Z
  | JReal x => dbl_eq_int x z
  | _ => false
  end.
Definition jis_null (j : json) : bool := match j with JNull => true | _ => false end.
Definition jis_integer (j : json) : bool :=
  match j with JInt _ | JUInt _ => true | _ => false end.

(** Writing a value to a file and parsing it again (JsonIO::read / write,
    include/z5/filesystem/attributes.hxx): non-negative integers come back as
    number_unsigned, NaN and infinities are written as null, doubles are written
    with the digits needed to recover them exactly. *)
Fixpoint reparse (j : json) : json :=
  match j with
  | JInt z => if (0 <=? z)%Z then JUInt (Z.to_N z) else JInt z
  | JReal DNan | JReal (DInf _) => JNull
  | JArr l => JArr (map reparse l)
  | JObj l => JObj (map (fun kv => match kv with (k, v) => (k, reparse v) end) l)
  | x => x
  end.
