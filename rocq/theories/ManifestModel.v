(** Model of the manifest of scanned files: /repo/pygeode/formats/data_scanner.py:34-159 and its use by from_files (639-653).
    Simplifications: file names are normalised already; what is recorded of a file ([E]: names, axes and attributes of its variables) is abstract, and
    sharing of axes is left out; a table keeps the place of an entry that is replaced; the manifest on disk has the current version;
    no two things happen at once. *)
From Coq Require Import ZArith List Bool String.
From Verif Require Import CfModel.
Import ListNotations.
Open Scope Z_scope.

Section Manifest.
Context {E : Type}.
(** times are counted in ticks, so many to the second *)
Context (tick : Z).
(* int(getmtime(f)) *)
Definition whole (t : Z) : Z := t / tick * tick.
(** a file: when it was changed, what the opener has given when it ends, and whether it ended without an exception *)
Definition file : Type := Z * E * bool.
Definition files := string -> option file.
Record man := Man { m_table : list (string * E); m_time : Z; m_dirty : bool }.
(* 60-61 *)
Definition empty : man := Man [] 0 false.
(* 83-129; false: an exception, from getmtime or from the opener.  The entry and the time are stored before the file is read *)
Fixpoint scan (fs : files) (l : list string) (m : man) : man * bool :=
  match l with
  | [] => (m, true)
  | f :: r =>
    match fs f with
    | None => (m, false)
    | Some (t, e, ok) =>
      if match lookup f (m_table m) with Some _ => whole t <=? m_time m | None => false end then scan fs r m
      else let m' := Man (put f e (m_table m)) (Z.max (m_time m) (whole t)) true in
           if ok then scan fs r m' else (Man (m_table m') (m_time m') (m_dirty m), false)
    end
  end.
(* 639-651, 133-134: what is known of the files asked for *)
Definition query (fs : files) (l : list string) (m : man) : option (list (option E)) :=
  let '(m', ok) := scan fs l m in if ok then Some (map (fun f => lookup f (m_table m')) l) else None.

(** the manifest on disk; Torn: its writing was broken off *)
Inductive stored := NoFile | Stored (time : Z) (table : list (string * E)) | Torn.
(* 37-61; None: f.read() and pickle.load fail with EOFError, outside of the try *)
Definition load (d : stored) : option man :=
  match d with NoFile => Some empty | Stored t tab => Some (Man tab t false) | Torn => None end.
(* 143-159 *)
Definition save (m : man) (d : stored) : stored * man :=
  if m_dirty m then (Stored (m_time m) (m_table m), Man (m_table m) (m_time m) false) else (d, m).
(* a process that dies after the file is written and before utime: the file keeps the time it was written at *)
Definition save_broken (now : Z) (m : man) (d : stored) : stored := if m_dirty m then Stored now (m_table m) else d.
(* a process that dies while it writes *)
Definition save_torn (m : man) (d : stored) : stored := if m_dirty m then Torn else d.

Record world := World { w_files : files; w_man : man; w_disk : stored }.
Inductive event :=
| Write (f : string) (x : file)
| Delete (f : string)
| Scan (l : list string)
| Save
| Restart                 (* the process ends, or dies, without saving, and another one begins *)
| DieUntimed (now : Z)    (* the process dies before utime, and another one begins *)
| DieTorn.
Definition set_file (fs : files) (f : string) (x : option file) : files := fun g => if String.eqb g f then x else fs g.
(* None: the new process cannot read the manifest *)
Definition step (w : world) (ev : event) : option world :=
  let '(World fs m d) := w in
  match ev with
  | Write f x => Some (World (set_file fs f (Some x)) m d)
  | Delete f => Some (World (set_file fs f None) m d)
  | Scan l => Some (World fs (fst (scan fs l m)) d)
  | Save => let '(d', m') := save m d in Some (World fs m' d')
  | Restart => option_map (fun m' => World fs m' d) (load d)
  | DieUntimed now => let d' := save_broken now m d in option_map (fun m' => World fs m' d') (load d')
  | DieTorn => let d' := save_torn m d in option_map (fun m' => World fs m' d') (load d')
  end.
End Manifest.
