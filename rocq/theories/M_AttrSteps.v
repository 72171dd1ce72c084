(** The calls on attributes as sequences of accesses to the file system, and several
    clients (threads or processes) that make such calls.  Nothing in
    include/z5/attributes.hxx, include/z5/generic/attributes.hxx and
    include/z5/filesystem/attributes.hxx orders accesses of different calls. *)
From Coq Require Import String.
From Verif Require Import M_Base M_Json M_Mode M_Fs M_Attributes.
Import ListNotations.
Local Open Scope list_scope.

(** Code of a call: it returns, or it accesses the file system once. *)
Inductive acode :=
| ARet (o : outcome json)
| AAct (f : fsys -> fsys * acode).

(** Computation on the call's own data. *)
Definition alift {A} (o : outcome A) (k : A -> acode) : acode :=
  match o with
  | Ok a => k a
  | Throw e => ARet (Throw e)
  | UB => ARet UB
  end.
(** fs::exists *)
Definition aexists (q : path) (k : bool -> acode) : acode := AAct (fun s => (s, k (fs_exists s q))).

(** isZarrDataset, isZarrGroup, include/z5/filesystem/handle.hxx:33-48; a dataset handle
    caches the first answer (lines 197-204), here it is looked up at each use. *)
Definition steps_is_zarr (k : hkind) (p : path) (cont : bool -> acode) : acode :=
  let mark := match k with HDataset => ".zarray"%string | _ => ".zgroup"%string end in
  aexists p (fun e =>
  if negb e then ARet (Throw ERuntime)
  else aexists (p ++ [mark]) (fun a => if a then cont true else aexists (p ++ ["zarr.json"%string]) cont)).

(** JsonIO::read, include/z5/filesystem/attributes.hxx:33-42: None is false.
    Simplified: opening and parsing is one access. *)
Definition steps_read (p : path) (name : string) (cont : option json -> acode) : acode :=
  aexists (p ++ [name]) (fun e =>
  if negb e then cont None
  else AAct (fun s => (s, match s (p ++ [name]) with Some (NDoc j) => cont (Some j) | _ => ARet (Throw EJson) end))).

(** JsonIO::write / writePretty, include/z5/filesystem/attributes.hxx:45-56: opening the
    stream empties the file, then the text is written; if the file cannot be opened
    nothing happens.  Simplified: the text arrives at once, and nobody removes the
    file meanwhile. *)
Definition steps_write (p : path) (name : string) (j : json) : acode :=
  AAct (fun s =>
    if fs_isdir s p && negb (fs_isdir s (p ++ [name]))
    then ((fun q => if path_eqb q (p ++ [name]) then Some (NBlob []) else s q),
          AAct (fun s => ((fun q => if path_eqb q (p ++ [name]) then Some (NDoc (reparse j)) else s q), ARet (Ok JNull))))
    else (s, ARet (Ok JNull))).

(** readAttributes, include/z5/generic/attributes.hxx:24-32 and 66-74, into a null
    value; [cont]: what is done with it. *)
Definition steps_gen_read (p : path) (z : bool) (cont : json -> acode) : acode :=
  let v3 := steps_read p "zarr.json" (fun o =>
    cont (match o with
          | Some full => match jfind "attributes" full with Some a => a | None => JNull end
          | None => JNull
          end)) in
  let plain := steps_read p (attributes_name z) (fun o => cont (match o with Some j => j | None => JNull end)) in
  if z then aexists (p ++ ["zarr.json"%string]) (fun e => if e then v3 else plain) else plain.

(** writeAttributes, include/z5/generic/attributes.hxx:35-44 and 76-90. *)
Definition steps_gen_write (p : path) (z : bool) (j : json) : acode :=
  let v3 := steps_read p "zarr.json" (fun o =>
    let full := match o with Some x => x | None => JObj [] end in
    alift (jmerge j (match jfind "attributes" full with Some a => a | None => JObj [] end)) (fun attrs =>
    alift (jput "attributes" attrs full) (fun full' => steps_write p "zarr.json" full'))) in
  let plain := steps_read p (attributes_name z) (fun o =>
    alift (jmerge j (match o with Some x => x | None => JObj [] end)) (fun new => steps_write p (attributes_name z) new)) in
  if z then aexists (p ++ ["zarr.json"%string]) (fun e => if e then v3 else plain) else plain.

(** removeAttribute, include/z5/generic/attributes.hxx:47-56 and 92-105. *)
Definition steps_gen_remove (p : path) (z : bool) (a : string) : acode :=
  let v3 := steps_read p "zarr.json" (fun o =>
    match o with
    | None => ARet (Ok JNull)
    | Some f =>
        alift (match jfind "attributes" f with
               | Some b => let! b' := jerase a b in jput "attributes" b' f
               | None => Ok f
               end) (fun f' => steps_write p "zarr.json" f')
    end) in
  let plain := steps_read p (attributes_name z) (fun o =>
    match o with
    | None => ARet (Ok JNull)
    | Some x => alift (jerase a x) (fun new => steps_write p (attributes_name z) new)
    end) in
  if z then aexists (p ++ ["zarr.json"%string]) (fun e => if e then v3 else plain) else plain.

(** The calls: readAttributes, writeAttributes and removeAttribute of a node. *)
Inductive acall :=
| AtRead (k : hkind) (p : path)
| AtWrite (k : hkind) (m : mode) (p : path) (j : json)
| AtRemove (k : hkind) (m : mode) (p : path) (a : string).
Definition call_node (c : acall) : path := match c with AtRead _ p | AtWrite _ _ p _ | AtRemove _ _ p _ => p end.

(** include/z5/attributes.hxx:82-274, with include/z5/filesystem/attributes.hxx:64-99:
    the overloads for files and datasets ask for the format twice, those for groups once. *)
Definition steps_of_call (c : acall) : acode :=
  match c with
  | AtRead k p =>
      steps_is_zarr k p (fun z => steps_gen_read p z (fun j =>
      match k with
      | HDataset => steps_is_zarr k p (fun z' => if z' then ARet (Ok j) else alift (hide_n5 j) (fun j' => ARet (Ok j')))
      | _ => ARet (Ok j)
      end))
  | AtWrite k m p j =>
      if negb (can_write m) then ARet (Throw EInvalidArgument)
      else
        let go := steps_is_zarr k p (fun z => steps_gen_write p z j) in
        match k with
        | HGroup => go
        | _ => steps_is_zarr k p (fun z => alift (if z then Ok tt else protect_json k j) (fun _ => go))
        end
  | AtRemove k m p a =>
      if negb (can_write m) then ARet (Throw EInvalidArgument)
      else
        let go := steps_is_zarr k p (fun z => steps_gen_remove p z a) in
        match k with
        | HGroup => go
        | _ => steps_is_zarr k p (fun z => alift (if z then Ok tt else protect_key k a) (fun _ => go))
        end
  end.

(** Code that runs without interruption: the file system afterwards and the answer. *)
Fixpoint run_steps (p : acode) (s : fsys) : fsys * outcome json :=
  match p with
  | ARet o => (s, o)
  | AAct f => let (s', p') := f s in run_steps p' s'
  end.

(** ** The clients *)
(** [ac_clients]: for each client the call it executes, and the calls it still has to
    make; [ac_log] (ghost): the calls that have returned, with client and answer. *)
Record aclients := AClients {
  ac_files : fsys;
  ac_clients : list (option (acall * acode) * list acall);
  ac_log : list (nat * acall * outcome json)
}.

(** Steps of client [t]. *)
Inductive aclient_step (y : aclients) (t : nat) : aclients -> Prop :=
| ac_start c rest : nth_error (ac_clients y) t = Some (None, c :: rest) ->
    aclient_step y t (AClients (ac_files y) (set_nth t (ac_clients y) (Some (c, steps_of_call c), rest)) (ac_log y))
| ac_act c f rest : nth_error (ac_clients y) t = Some (Some (c, AAct f), rest) ->
    aclient_step y t (AClients (fst (f (ac_files y)))
      (set_nth t (ac_clients y) (Some (c, snd (f (ac_files y))), rest)) (ac_log y))
| ac_end c o rest : nth_error (ac_clients y) t = Some (Some (c, ARet o), rest) ->
    aclient_step y t (AClients (ac_files y) (set_nth t (ac_clients y) (None, rest)) (ac_log y ++ [(t, c, o)])).
(** Any client may make the next step. *)
Definition aclients_step (y y' : aclients) : Prop := exists t, aclient_step y t y'.
Definition aclients_init (s : fsys) (calls : list (list acall)) : aclients :=
  AClients s (map (fun l => (None, l)) calls) [].
(** All calls have returned. *)
Definition aclients_done (y : aclients) : Prop := Forall (fun x => x = (None, [])) (ac_clients y).

(** ** Interruption *)
(** The files when the process dies while it executes code: between two accesses, or
    while text is written to a file that has been emptied.  Simplified: a part of the
    text is no json (it is the text of an object). *)
Inductive acrash : acode -> fsys -> fsys -> Prop :=
| acrash_now p s : acrash p s s
| acrash_later f s s' : acrash (snd (f s)) (fst (f s)) s' -> acrash (AAct f) s s'
| acrash_torn f s q j b : s q = Some (NBlob []) -> fst (f s) q = Some (NDoc j) ->
    acrash (AAct f) s (fun x => if path_eqb x q then Some (NBlob b) else s x).
