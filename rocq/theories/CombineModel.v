(** Model of how metadata (attributes, names, units) of several objects are put together.
    Dictionaries are lists of entries with different keys, in the order of their insertion.  [differ] is the test used by the code: [x != y], or, when that is an array, whether any entry of it is true. *)
From Coq Require Import ZArith List Bool.
From Verif Require Import IndexModel.
Import ListNotations.
Open Scope Z_scope.

Section Meta.
Context {V : Type} (differ : V -> V -> bool).
Definition dict := list (Z * V).
Definition look (k : Z) (d : dict) : option V := option_map snd (find (fun '(m, _) => m =? k) d).
(* d[k] = v : the entry keeps its place if there is one *)
Fixpoint store (d : dict) (k : Z) (v : V) : dict :=
  match d with [] => [(k, v)] | (m, w) :: t => if m =? k then (m, v) :: t else (m, w) :: store t k v end.
(* dict([(k,v) for x in dicts for k,v in x.items()]) *)
Definition merge (ds : list dict) : dict := fold_left (fun d '(k, v) => store d k v) (concat ds) [].
(* tools.py:122-132  one pass of the inner loop: true when the entry survives *)
Definition survives (ds : list dict) (e : Z * V) : bool :=
  forallb (fun x => match look (fst e) x with Some w => negb (differ w (snd e)) | None => false end) ds.
(* tools.py:115-133  common_dict(d1, d2, ...) or common_dict([d1, d2, ...]) *)
Definition common_dict (ds : list dict) : dict := filter (survives ds) (merge ds).
(* tools.py:115-133  common_dict(d for d in ...): the merging pass uses up the generator, so that the second loop sees no dictionary at all *)
Definition common_dict_generator (ds : list dict) : dict := filter (survives []) (merge ds).

(** what combine_meta looks at: name and units (None for the empty value), atts, plotatts, and whether the object is an axis *)
Record meta := MkMeta { m_name : option Z; m_units : option Z; m_atts : dict; m_plot : dict; m_axis : bool }.
Definition opt_eqb (a b : option Z) : bool := match a, b with Some x, Some y => x =? y | None, None => true | _, _ => false end.
(* s = list(set([...])); if len(s) == 1: setattr(outvar, att, s[0]) *)
Definition agreed_att (old : option Z) (l : list (option Z)) : option Z :=
  match l with [] => old | x :: t => if forallb (opt_eqb x) t then x else old end.
(* var.py:809-824  combine_meta *)
Definition combine_meta (invars : list meta) (out : meta) : meta :=
  MkMeta (agreed_att (m_name out) (map m_name invars)) (agreed_att (m_units out) (map m_units invars))
    (common_dict (map m_atts invars)) (common_dict (map m_plot (filter (fun v => negb (m_axis v)) invars))) (m_axis out).
(* ensemble.py:13-25  metadata of EnsembleVar: combine_meta, then the name of the first *)
Definition ensemble_meta (invars : list meta) (out : meta) : meta :=
  let m := combine_meta invars out in
  match invars with [] => m | v :: _ => MkMeta (m_name v) (m_units m) (m_atts m) (m_plot m) (m_axis m) end.
(* ensemble.py:74  global attributes of ensemble(...) of datasets *)
Definition ensemble_atts (ds : list dict) : dict := common_dict_generator ds.
(* dataset.py:430-442  global attributes of Dataset.add: common_dict is computed and not used *)
Definition add_atts (self : dict) (others : list dict) : dict := self.
(* dataset.py:714-719  global attributes of dataset.concat *)
Definition concat_atts (ds : list dict) : dict := match ds with [d] => d | _ => common_dict ds end.
(* formats/multifile.py:261  global attributes of open_multi *)
Definition multi_atts (first last : dict) : dict := common_dict [first; last].
End Meta.

(** dataset.py:684-720  dataset.concat: the variables of each name, in the order of the datasets, joined by the function [join] (concat of concat.py, modelled in ConcatModel.v). *)
Section Datasets.
Context {X : Type} (join : list X -> option X).
Definition dset := list (Z * X).
Definition mem (n : Z) (l : list Z) : bool := existsb (Z.eqb n) l.
(* varnames: the names in the order they are found *)
Definition varnames (ds : list dset) : list Z := fold_left (fun l '(n, _) => if mem n l then l else l ++ [n]) (concat ds) [].
(* vardict[n] *)
Definition segments (n : Z) (ds : list dset) : list X := map snd (filter (fun '(m, _) => m =? n) (concat ds)).
Definition join_segments (l : list X) : option X := match l with [v] => Some v | _ => join l end.
Definition concat_datasets (ds : list dset) : option dset :=
  match ds with
  | [d] => Some d
  | _ => sequence (map (fun n => option_map (pair n) (join_segments (segments n ds))) (varnames ds))
  end.
End Datasets.
