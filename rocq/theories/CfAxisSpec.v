(** What should come back of an axis that is not a time axis. *)
From Coq Require Import ZArith List Bool QArith_base Ascii String.
From Verif Require Import CfModel.
Import ListNotations.

(** no blank in the name *)
Definition unbroken (s : string) : Prop := forall n, String.get n s <> Some " "%char.

(** The axis as a dataset holds it: names of its arrays are different words, no other variable has the name
    <axis>_<array>, and its attributes do not refer to arrays already. *)
Record storable (others : list string) (a : caxis) (aux : list (string * list Q)) : Prop := Storable {
  st_name : aux <> [] -> unbroken (x_name a);
  st_words : Forall unbroken (map fst aux);
  st_distinct : NoDup (map fst aux);
  st_free : forall n, In n (map fst aux) -> ~ In (x_name a ++ "_" ++ n)%string others;
  st_atts : lookup "ancillary_variables" (x_atts a) = None }.

(** the title by which an axis is recognized: its standard name, or else its long name, or else its name *)
Definition title (a : caxis) : string :=
  match lookup "standard_name" (x_atts a), lookup "long_name" (x_atts a) with
  | Some s, _ => s | None, Some s => s | None, None => x_name a
  end.
Definition units_of (a : caxis) : string := match lookup "units" (x_atts a) with Some u => u | None => ""%string end.
(** neither the title nor the units point to a special kind of axis *)
Definition neutral (a : caxis) : Prop :=
  ~ In (lower (title a)) ["latitude"; "longitude"; "air_pressure"; "atmosphere_hybrid_sigma_pressure_coordinate"; "station"]%string /\
  ~ In (units_of a) ["degrees_north"; "degrees_east"; "hPa"; "mbar"]%string /\
  contains " since " (units_of a) = false.

(** names that netCDF accepts: letters, digits and underscores, not beginning with a digit *)
Definition letters : string := "abcdefghijklmnopqrstuvwxyzABCDEFGHIJKLMNOPQRSTUVWXYZ".
Definition one_of (c : ascii) (s : string) : Prop := exists n, String.get n s = Some c.
Definition legal (s : string) : Prop :=
  (forall n c, String.get n s = Some c -> one_of c (letters ++ "0123456789_")) /\
  exists c, String.get 0 s = Some c /\ one_of c (letters ++ "_").
