(** Interpolation with windowed sines. *)
From Coq Require Import ZArith List Reals.
From Flocq Require Core.Raux.
From Flocq Require IEEE754.Binary.
From Verif Require Import Base Flt Spec Kiss SpecTransform SpecAccuracy SpecInterpolate.
Import ListNotations.
Open Scope list_scope.
Open Scope R_scope.

(** ** Kernels *)
Definition sinc (x : R) : R := if Req_EM_T x 0 then 1 else sin (PI * x) / (PI * x).
(** Lanczos' kernel with a lobes on either side *)
Definition lanczos (a : Z) (u : R) : R := if Rlt_dec (Rabs u) (IZR a) then sinc u * sinc (u / IZR a) else 0.

(** the weights of all old samples around a new one that is at u, and the kernel whose
    weights are divided by their sum *)
Definition total (a : Z) (K : R -> R) (u : R) : R :=
  rsum (fun m => K (u - IZR m)) (Raux.Zfloor u - a) (Raux.Zfloor u + a + 1).
Definition normalised (a : Z) (K : R -> R) (u : R) : R := K u / total a K u.

(** the kernels of programs that scale images: the widths of the old spectrum on either
    side of its end where their responses are known to be positive are N / (a lobe) *)
Definition lanczos_kernel (lobe a : Z) (K : R -> R) : Prop :=
  (2 <= a)%Z /\ ((lobe = 7%Z /\ K = lanczos a) \/ (lobe = 15%Z /\ K = normalised a (lanczos a))).

(** ** Images *)
(** a frame that was made s times as wide (high) with such a kernel, and then changed by at
    most d per sample; the range is small enough for the kernel *)
Definition lanczos_upscale_x (s N h range : Z) (image : list f32) : Prop :=
  exists g lobe a K M d lw lh, lanczos_kernel lobe a K /\ (lobe * a * range <= N)%Z /\
    1 <= M <= 1048576 /\ kf_factor (s * N) = Ok lw /\ kf_factor h = Ok lh /\
    nearly_samples (s * N) h image (rows_resampled N (s * N) a K g) M d /\
    above_x (s * N) h N range (rows_resampled N (s * N) a K g)
      (coefficient_error (s * N) h (radices_of lw) (radices_of lh) M + 4 * IZR (s * N) * IZR h * d).
Definition lanczos_upscale_y (s N w range : Z) (image : list f32) : Prop :=
  exists g lobe a K M d lw lh, lanczos_kernel lobe a K /\ (lobe * a * range <= N)%Z /\
    1 <= M <= 1048576 /\ kf_factor w = Ok lw /\ kf_factor (s * N) = Ok lh /\
    nearly_samples w (s * N) image (columns_resampled N (s * N) a K g) M d /\
    above_y w (s * N) N range (columns_resampled N (s * N) a K g)
      (coefficient_error w (s * N) (radices_of lw) (radices_of lh) M + 4 * IZR w * IZR (s * N) * d).
