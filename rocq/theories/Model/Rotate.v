(** rf/rfstream.py:325-327 and 338-343: rotation and deconvolution of the groups of rf(), with the
    rotation of obspy and the function deconvolve(). *)
From Verif Require Export Model.Rf Model.Deconv.

(** obspy Stream.select(component=c) *)
Definition with_comp (h : heap) (c : ascii) (ls : list loc) : list loc :=
  filter (fun l => endswith_char (channel (st (h l))) c) ls.
(** obspy Stream.rotate: new samples, tr.stats.channel[:-1] + c *)
Definition relabel (c : string) (d : list Q) (t : trace) : trace :=
  mkTrace (mkStats (network (st t)) (station (st t)) (location (st t)) (droplast (channel (st t)) ++ c)
                   (starttime (st t)) (delta (st t)) (extra (st t))) d.
(** obspy Stream.rotate: the components have to have the same time span *)
Definition same_span (a b : trace) : bool :=
  Nat.eqb (List.length (data a)) (List.length (data b)) && (2 * Z.abs (starttime (st a) - starttime (st b)) <=? delta (st a))%Z
  && Z.eqb (delta (st a)) (delta (st b)).
(** samples of three (two) traces together *)
Definition zip3 (f : Q -> Q -> Q -> Q) (a b c : list Q) : list Q :=
  map (fun x => f (fst x) (fst (snd x)) (snd (snd x))) (combine a (combine b c)).
(** obspy.signal.rotate.rotate_ne_rt works on whole arrays *)
Definition zip2 (f : Q -> Q -> Q) (a b : list Q) : list Q := map (fun x => f (fst x) (snd x)) (combine a b).

Section Rotation.
  (** cosine and sine of an angle in degrees *)
  Variables cosd sind : Q -> Q.
  (** what obspy does if components are missing: nothing or an error *)
  Variable incomplete : list trace -> res unit.

  (** obspy Stream.rotate('ZNE->LQT') (library contract, called in rfstream.py:327) for a stream with at most
      one trace for each component; angles are those of the first trace. The formulas are those of
      obspy.signal.rotate.rotate_zne_lqt. *)
  Definition rotate_lqt (ls : list loc) (h : heap) : heap * res unit :=
    match with_comp h "Z" ls, with_comp h "N" ls, with_comp h "E" ls with
    | [z], [n], [e] =>
        match ls with
        | [] => (h, Err IndexError)
        | l0 :: _ =>
            match dget (extra (st (h l0))) "back_azimuth", dget (extra (st (h l0))) "inclination" with
            | Some (VNum b), Some (VNum i) =>
                if same_span (h z) (h n) && same_span (h z) (h e) then
                  let angles t := set_extra (set_extra t "back_azimuth" (VNum b)) "inclination" (VNum i) in
                  let dz := data (h z) in let dn := data (h n) in let de := data (h e) in
                  let l := zip3 (fun z n e => z * cosd i - n * sind i * cosd b - e * sind i * sind b)%Q dz dn de in
                  let q := zip3 (fun z n e => z * sind i + n * cosd i * cosd b + e * cosd i * sind b)%Q dz dn de in
                  let t := zip3 (fun z n e => n * sind b - e * cosd b)%Q dz dn de in
                  (hset (hset (hset h z (angles (relabel "L" l (h z)))) n (angles (relabel "Q" q (h n)))) e (angles (relabel "T" t (h e))), Ok tt)
                else (h, Err ValueError)
            | _, _ => (h, Err TypeError)
            end
        end
    | _, _, _ => (h, incomplete (map h ls))
    end.
  (** obspy Stream.rotate('NE->RT') (library contract, called in rfstream.py:327), likewise;
      obspy.signal.rotate.rotate_ne_rt *)
  Definition rotate_rt (ls : list loc) (h : heap) : heap * res unit :=
    match with_comp h "N" ls, with_comp h "E" ls with
    | [n], [e] =>
        match ls with
        | [] => (h, Err IndexError)
        | l0 :: _ =>
            match dget (extra (st (h l0))) "back_azimuth" with
            | Some (VNum b) =>
                if same_span (h n) (h e) then
                  let angle t := set_extra t "back_azimuth" (VNum b) in
                  let dn := data (h n) in let de := data (h e) in
                  let r := zip2 (fun n e => - e * sind b - n * cosd b)%Q dn de in
                  let t := zip2 (fun n e => - e * cosd b + n * sind b)%Q dn de in
                  (hset (hset h n (angle (relabel "R" r (h n)))) e (angle (relabel "T" t (h e))), Ok tt)
                else (h, Err ValueError)
            | _ => (h, Err TypeError)
            end
        end
    | _, _ => (h, incomplete (map h ls))
    end.
End Rotation.

(** rfstream.py:315-316, 338-343: deconvolution of one group, for the given kind of deconvolution and
    without further keywords. The result of deconvolve() is not used. *)
Definition rf_dec (kernel : kcall -> res (list (list Q) * list Z)) (taper : Z -> trace -> trace) (kind : string)
    (method : string) (g : list loc) (h : heap) : heap * res unit :=
  let source_components := if String.eqb method "P" then "LZ" else "QR" in
  match deconvolve kernel taper kind source_components None (WStr method) None g h with
  | (h', Ok _) => (h', Ok tt)
  | (h', Err e) => (h', Err e)
  end.
