"""Run the model on the photograph of the project's tests, outside Coq.

The theorems do not depend on this script.  It extracts resdetect and the KISS
transform to OCaml in a scratch directory, replaces lists by arrays, integers by
zarith and the IEEE operations by those of the processor, reads
/repo/test/files/blue_marble_2012_resized.png, and prints what the model reports.

usage: python3 tools/photo_test.py SCRATCH   (after building rocq/)
"""
import os, struct, subprocess, sys, zlib

FILES = {}
FILES['Ex.v'] = r'''From Coq Require Import ExtrOcamlNativeString ZArith List.
From Coq Require Extraction.
From Verif Require Import Base Flt Util Methods Analysis Resdetect Kiss SpecTransform.
Extraction Language OCaml.
Set Extraction AccessOpaque.
Extract Inductive bool => "bool" [ "true" "false" ].
Extract Inductive sumbool => "bool" [ "true" "false" ].
Extract Inductive option => "option" [ "Some" "None" ].
Extract Inductive unit => "unit" [ "()" ].
Extract Inductive prod => "( * )" [ "" ].
Extract Inductive list => "Lst.t" [ "(Lst.nil ())" "Lst.cons" ] "Lst.case".
Extract Inductive nat => "int" [ "0" "Stdlib.succ" ] "(fun z s n -> if n=0 then z () else s (n-1))".
Extract Inductive positive => "ZZ.t" [ "Num.xI" "Num.xO" "ZZ.one" ] "Num.pcase".
Extract Inductive Z => "ZZ.t" [ "ZZ.zero" "" "ZZ.neg" ] "Num.zcase".
Extract Inductive comparison => "int" [ "0" "(-1)" "1" ] "(fun e l g c -> if c=0 then e () else if c<0 then l () else g ())".
Extract Inlined Constant Z.add => "ZZ.add".
Extract Inlined Constant Z.sub => "ZZ.sub".
Extract Inlined Constant Z.mul => "ZZ.mul".
Extract Inlined Constant Z.opp => "ZZ.neg".
Extract Inlined Constant Z.eqb => "ZZ.equal".
Extract Inlined Constant Z.ltb => "ZZ.lt".
Extract Inlined Constant Z.leb => "ZZ.leq".
Extract Inlined Constant Z.gtb => "ZZ.gt".
Extract Inlined Constant Z.geb => "ZZ.geq".
Extract Inlined Constant Z.max => "ZZ.max".
Extract Inlined Constant Z.min => "ZZ.min".
Extract Inlined Constant Z.modulo => "Num.fmod".
Extract Inlined Constant Z.div => "Num.fdiv".
Extract Inlined Constant Z.quot => "ZZ.div".
Extract Inlined Constant Z.rem => "ZZ.rem".
Extract Inlined Constant Z.pow => "Num.pow".
Extract Inlined Constant Z.log2 => "Num.log2".
Extract Inlined Constant Z.odd => "ZZ.is_odd".
Extract Inlined Constant Z.to_nat => "Num.to_nat".
Extract Inlined Constant Z.of_nat => "ZZ.of_int".
Extract Constant wrap => "Num.wrap".
Extract Constant zlen => "Lst.zlen".
Extract Constant get => "(fun l i -> match Lst.get l i with Some v -> Ok v | None -> Undef OutOfBounds)".
Extract Constant set => "(fun l i v -> match Lst.set l i v with Some l -> Ok l | None -> Undef OutOfBounds)".
Extract Inlined Constant repeat => "Lst.repeat".
Extract Inlined Constant map => "Lst.map".
Extract Inlined Constant firstn => "Lst.firstn".
Extract Inlined Constant skipn => "Lst.skipn".
Extract Inlined Constant f32 => "float".
Extract Inlined Constant f64 => "float".
Extract Inlined Constant fadd => "Num.fadd".
Extract Inlined Constant fsub => "Num.fsub".
Extract Inlined Constant fmul => "Num.fmul".
Extract Inlined Constant fdiv => "Num.fdivf".
Extract Inlined Constant fopp => "Float.neg".
Extract Inlined Constant fabsf => "Float.abs".
Extract Inlined Constant dadd => "( +. )".
Extract Inlined Constant dsub => "( -. )".
Extract Inlined Constant dmul => "( *. )".
Extract Inlined Constant ddiv => "( /. )".
Extract Inlined Constant dopp => "Float.neg".
Extract Inlined Constant dabs => "Float.abs".
Extract Inlined Constant f32_of_Z => "Num.f32z".
Extract Inlined Constant f64_of_Z => "ZZ.to_float".
Extract Inlined Constant f64_of_f32 => "(fun (x:float) -> x)".
Extract Inlined Constant f32_of_f64 => "Num.r32".
Extract Inlined Constant flt => "(fun (a:float) b -> a < b)".
Extract Inlined Constant fgt => "(fun (a:float) b -> a > b)".
Extract Inlined Constant feq => "(fun (a:float) b -> a = b)".
Extract Inlined Constant dlt => "(fun (a:float) b -> a < b)".
Extract Inlined Constant dgt => "(fun (a:float) b -> a > b)".
Extract Inlined Constant deq => "(fun (a:float) b -> a = b)".
Extract Inlined Constant fsign => "Float.sign_bit".
Extract Inlined Constant ffinite => "Float.is_finite".
Extract Inlined Constant fisnan => "Float.is_nan".
Extract Inlined Constant fcopysign => "Float.copy_sign".
Extract Inlined Constant DBL_EPSILON => "epsilon_float".
Extract Inlined Constant dround => "Float.round".
Extract Inlined Constant frexp_exp => "(fun _ x -> ZZ.of_int (snd (Float.frexp x)))".
Extract Inlined Constant floor_sqrt => "Num.floor_sqrt".
Definition env_of tw su sh qs := kiss_env default_config (fun _ => true) (float_ops tw su sh) qs f0 (f0, f0) (f0, f0).
Definition all := mkWants true true true true.
Definition nouts := mkOuts None 0 None 0.
Definition go tw su sh qs image n w h (name : option String.string) (p : option params) :=
  resdetect (env_of tw su sh qs) (Some image) n w h all (match name with None => None | Some s => resdet_get_method (Some s) end) p nouts world0.
Definition dflt := default_params default_config.
Definition set_range := resdet_parameters_set_range.
Definition set_threshold := resdet_parameters_set_threshold.
Extraction "ex.ml" go dflt set_range set_threshold f32_of_Z.
'''

FILES['lst.ml'] = r'''type 'a t = 'a rep ref
and 'a rep = Nil | Cons of 'a * 'a t | Arr of 'a array | Diff of int * 'a * 'a t
let nil () = ref Nil
let cons (a, l) = ref (Cons (a, l))
let rec reroot t = match !t with
  | Diff (i, v, t') ->
    reroot t';
    (match !t' with
     | Arr a -> let old = a.(i) in a.(i) <- v; t := Arr a; t' := Diff (i, old, t)
     | _ -> assert false)
  | _ -> ()
let to_list l =
  let rec go acc l = reroot l; match !l with
    | Nil -> List.rev acc
    | Cons (a, t) -> go (a :: acc) t
    | Arr a -> List.rev_append acc (Array.to_list a)
    | Diff _ -> assert false in go [] l
let of_array a = ref (Arr a)
let arr l = reroot l; match !l with
  | Arr a -> a
  | _ -> let a = Array.of_list (to_list l) in l := Arr a; a
let case f g l = reroot l; match !l with
  | Nil -> f ()
  | Cons (a, t) -> g a t
  | Arr a -> if Array.length a = 0 then f ()
    else (let r = ref (nil ()) in
          for i = Array.length a - 1 downto 1 do r := cons (a.(i), !r) done;
          g a.(0) !r)
  | Diff _ -> assert false
let zlen l = Z.of_int (Array.length (arr l))
let get l i = let a = arr l in
  if Z.sign i >= 0 && Z.lt i (Z.of_int (Array.length a)) then Some a.(Z.to_int i) else None
let set l i v = let a = arr l in
  if Z.sign i >= 0 && Z.lt i (Z.of_int (Array.length a)) then begin
    let i = Z.to_int i in
    let old = a.(i) in a.(i) <- v;
    let r = ref (Arr a) in l := Diff (i, old, r); Some r end else None
let repeat x n = of_array (Array.make n x)
let map f l = of_array (Array.map f (arr l))
let firstn n l = let a = arr l in of_array (Array.sub a 0 (min n (Array.length a)))
let skipn n l = let a = arr l in let k = min n (Array.length a) in of_array (Array.sub a k (Array.length a - k))
'''

FILES['zZ.ml'] = r'''include Z
'''

FILES['num.ml'] = r'''let two = Z.of_int 2
let xI p = Z.succ (Z.mul two p)
let xO p = Z.mul two p
let pcase f g h p = if Z.equal p Z.one then h () else if Z.is_odd p then f (Z.shift_right p 1) else g (Z.shift_right p 1)
let zcase z p n x = let s = Z.sign x in if s = 0 then z () else if s > 0 then p x else n (Z.neg x)
let fdiv a b = if Z.sign b = 0 then Z.zero else Z.fdiv a b
let fmod a b = if Z.sign b = 0 then a else Z.sub a (Z.mul b (Z.fdiv a b))
let pow a b = if Z.sign b < 0 then Z.zero else Z.pow a (Z.to_int b)
let log2 z = if Z.sign z <= 0 then Z.zero else Z.of_int (Z.numbits z - 1)
let to_nat z = if Z.sign z < 0 then 0 else Z.to_int z
let m64 = Z.shift_left Z.one 64
let wrap z = if Z.sign z >= 0 && Z.fits_int z then z else fmod z m64
let r32 x = Int32.float_of_bits (Int32.bits_of_float x)
let fadd a b = r32 (a +. b) let fsub a b = r32 (a -. b) let fmul a b = r32 (a *. b) let fdivf a b = r32 (a /. b)
let f32z z = r32 (Z.to_float z)
let floor_sqrt z = Z.of_float (Float.trunc (sqrt (Z.to_float z)))
'''

FILES['main.ml'] = r'''open Ex
module Z = ZZ
let pi = 4. *. atan 1.
let c p = (Num.r32 (cos p), Num.r32 (sin p))
let tw n i = c (-2. *. pi *. Z.to_float i /. Z.to_float n)
let su n i = c (-. pi *. ((Z.to_float (Z.succ i)) /. Z.to_float n +. 0.5))
let sh n i = c (-. pi *. Z.to_float i /. (2. *. Z.to_float n))
let qs cmp l = Lst.of_array (Array.of_list (List.stable_sort (fun a b -> Z.to_int (cmp a b)) (Lst.to_list l)))
let w, h = 768, 768
let img () = let ic = open_in_bin "img.f32" in
  let a = Array.init (w*h) (fun _ -> let b = really_input_string ic 4 in Int32.float_of_bits (String.get_int32_le b 0)) in
  close_in ic; Lst.of_array a
let show r = let l = match r with None -> [] | Some (_, l) -> Lst.to_list l in
  String.concat " " (List.map (fun r -> Printf.sprintf "%s:%.4f" (Z.to_string r.r_index) r.r_conf) (List.filteri (fun i _ -> i < 4 || i >= List.length l - 2) l))
let run label name p =
  (match go tw su sh qs (img ()) Z.one (Z.of_int w) (Z.of_int h) name p with
   | Undef _ -> Printf.printf "%s: UNDEF\n" label
   | Ok ((e, o), wd) -> Printf.printf "%s: err %s, %s widths [%s], %s heights [%s], live blocks %d\n" label (Z.to_string e) (Z.to_string o.o_cw) (show o.o_rw) (Z.to_string o.o_ch) (show o.o_rh) (List.length (Lst.to_list wd.w_live)));
  flush stdout
let () =
  run "default" None None;
  List.iter (fun m -> run m (Some m) None) ["sign"; "mag"; "orig"; "zerox"];
  run "threshold 0" None (snd (set_threshold (Some dflt) 0.));
  run "range 8" None (snd (set_range (Some dflt) (Z.of_int 8)))
'''


def grey(path, weights):
    """Decode the 16 bit RGB PNG and write float samples."""
    data = open('/repo/test/files/blue_marble_2012_resized.png', 'rb').read()
    p, idat = 8, b''
    while p < len(data):
        n, t = struct.unpack('>I4s', data[p:p + 8])
        body = data[p + 8:p + 8 + n]
        p += 12 + n
        if t == b'IHDR':
            w, h, depth, kind = struct.unpack('>IIBB', body[:10])
        elif t == b'IDAT':
            idat += body
    assert (w, h, depth, kind) == (768, 768, 16, 2)
    raw, bpp = zlib.decompress(idat), 6
    st = w * bpp
    prev = bytearray(st)
    with open(path, 'wb') as out:
        for y in range(h):
            f = raw[y * (st + 1)]
            r = bytearray(raw[y * (st + 1) + 1:(y + 1) * (st + 1)])
            for i in range(st):
                a = r[i - bpp] if i >= bpp else 0
                b = prev[i]
                c = prev[i - bpp] if i >= bpp else 0
                q = a + b - c
                pa, pb, pc = abs(q - a), abs(q - b), abs(q - c)
                paeth = a if pa <= pb and pa <= pc else (b if pb <= pc else c)
                r[i] = (r[i] + (0, a, b, (a + b) // 2, paeth)[f]) & 255
            for x in range(w):
                s = struct.unpack('>3H', r[x * 6:x * 6 + 6])
                v = sum(k * c for k, c in zip(weights, s)) / 65535
                out.write(struct.pack('<f', v))
            prev = r


if __name__ == '__main__':
    d = sys.argv[1]
    theories = os.path.join(os.path.dirname(os.path.abspath(__file__)), '..', 'rocq', 'theories')
    os.makedirs(d, exist_ok=True)
    for name, text in FILES.items():
        open(os.path.join(d, name), 'w').write(text)
    subprocess.run(['coqc', '-Q', os.path.abspath(theories), 'Verif', 'Ex.v'], cwd=d, check=True)
    os.remove(os.path.join(d, 'ex.mli'))
    subprocess.run(['ocamlfind', 'ocamlopt', '-package', 'zarith', '-linkpkg',
                    'zZ.ml', 'lst.ml', 'num.ml', 'ex.ml', 'main.ml', '-o', 'run'], cwd=d, check=True)
    for weights in ((1 / 3, 1 / 3, 1 / 3), (0.212656, 0.715158, 0.072186)):
        print('grey = %g R + %g G + %g B' % weights, flush=True)
        grey(os.path.join(d, 'img.f32'), weights)
        subprocess.run(['sh', '-c', 'ulimit -s unlimited; ./run'], cwd=d, check=True)
