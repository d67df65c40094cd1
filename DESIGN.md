# Formal model of oplab_pipeline: design

## What is verified

`/verif/rocq` contains a Rocq (Coq 8.16.1) development about a *model* of the Python
code in `/repo/src`.  Nothing in it runs the Python code; the tie between model and
code is the reading of the source.  Every model definition carries a comment citing
file and lines, and lists its simplifications.

For each area there are two to four files:

| file | contents |
|---|---|
| `<Area>Model.v` | executable/total Gallina transcription of the functions, no proofs |
| `<Area>Spec.v` (or a "Specification" section at the top of the props file) | the few definitions needed to *read* the theorems, independent of the model's helpers |
| `<Area>Proofs.v` (larger areas only) | lemmas, invariants |
| `<Area>Props.v` | the `Cnn_…` theorems, each followed by `Print Assumptions`, and the non-vacuity `Example`s (`Cnn_ex…`) |

`PyBase.v` (Python list indexing, comparisons on Q), `ListFacts.v`, `SortQ.v` (a stable
sort standing for `sorted`/`np.sort`) are shared.

Naming: `Cnn_…` for theorems about property Cnn.  `…_partial`: a weaker statement than
the English property (what is missing is said next to it).  `…_refuted`: the English
property, or the part of it the theorem's comment names, is false of the faithful model;
the theorem exhibits a witness, and the comment traces it through the source.

MANIFEST.json is written by `tools/manifest.py` from the theorem names and
`tools/notes.json`.  A property is *partial* as soon as one theorem about it is
`_partial` or `_refuted`: most are, because reading the code closely enough to model it
finds an input on which the property a user would expect fails; the note then says
for which inputs it is proved and for which it is refuted.

## Trusted base

* Coq's kernel (8.16.1), and the reading of the Python source.
* Axioms: those `Print Assumptions` prints under each theorem, collected per theorem in
  `AXIOMS.md` (written by `tools/axioms.py`).  Only axioms of the standard library
  occur, through its real numbers: `ClassicalDedekindReals.sig_forall_dec`,
  `ClassicalDedekindReals.sig_not_dec`, `FunctionalExtensionality.functional_extensionality_dep`,
  and `Classical_Prop.classic` where the library's trigonometry/analysis uses it.
  Theorems over `Z`, `N`, `Q`, lists and mathcomp matrices are closed under the global context.
* Libraries: the standard library; mathcomp (matrices over a real field, in the
  EKF covariance files only); Coquelicot (derivatives, in the EKF Jacobian files only);
  Flocq (IEEE binary64, in the Float files only).
  No axiom of mathcomp, Coquelicot or Flocq is used.
* Numbers: Python floats are modelled as exact rationals (`Q`) or reals (`R`), Python ints
  as `Z`/`N`.  Rounding, overflow, NaN and infinities are not modelled unless a definition
  says so.  C249 to C252 are the exception: there floats are IEEE binary64 numbers, bit for
  bit, and the theorems bound or refute what rounding does to the exact claims of the other
  models (time stamps, interpolation, heading wrap, dead reckoning, depth layers) (NaN is modelled as `None` where the code tests for it; `float_info.max` and the
  like are explicit constants).
* Exceptions are values (`None` or an error constructor).  External libraries
  (numpy linear algebra, scipy optimisers, geographiclib, pandas, OpenCV, random numbers)
  appear as section variables / function arguments over which the theorems quantify,
  sometimes with a contract as an explicit hypothesis of the theorem (e.g. the SVD in C54:
  the normal returned is a unit vector minimising the residual), or as explicit simple models.
* Files, mutable objects and threads, where a property is about them, are explicit state:
  a map from paths to contents for the output guards (C26), an object store with references
  for the particle filter's trajectories (C23) and for in-place numpy views (C54), the
  modules' global lists (C27, C29), a small-step interleaving semantics with a heap for the
  CSV writer threads (C56).
* Text: bytes/characters are `N` codes or `Ascii`; YAML and JSON documents are the trees the
  libraries return, not their text; CSV files are lists of cell texts, `float(str(x)) = x`
  being a hypothesis.

## What is modelled, by file

| /repo/src | modelled | not modelled |
|---|---|---|
| auv_nav/tools | interpolate, body_to_inertial, inertial_to_body, dvl_level_arm, time_conversions, csv_tools (write_csv, spp_csv, load_states), transformations (quaternion_matrix, euler_from_matrix for "sxyz") | latlon_wgs84 and the geodesy (an argument), csv_tools' covariance plots, the rest of transformations.py (unused by the pipeline) |
| auv_nav/localisation | dead_reckoning, usbl_filter, usbl_offset, ekf.py (predict, correct, gate, run, smooth, Jacobian, measurements from samples, published states, update/save lists), pf.py (prior, measure, resample, propagate, run) | particle.py, particle_filter.py (not imported by the pipeline) |
| auv_nav/process.py | window selection, synchronisation, the whole dead-reckoning path, velocity uncertainties, inertial dead reckoning, tide/seafloor depth, the order of filters, auv_nav.yaml and the files written for it, relative pose uncertainties, writers as threads | plotting, console output |
| auv_nav/parse.py, convert.py | existence guards, choice of the parsers, compilation of the records, tidal loop, merging of dives, platform-independent offsets | thread pool, console output |
| auv_nav/parsers | phins checksum and message state machine, interlacer, GAPS, USBL dump, HyBis, Voyis, RDI, ALR/Autosub/koyo21 tables, NTNU DVL rows, EIVA NaviPac lines, ACFR pose/RAW/images, BioCam images, AE2000 tables, SeaXerocks images, koyo20rov conversion, POLPRED and CTI tides, NOC NMEA fixes, Sonardyne MRT and GGA logs, extracted ROS images, GoPro pairs, zone and clock-offset handling of all | console output |
| auv_nav/sensors.py | JSON export/import, CSV rows, Imu attitude | ROS image messages |
| oplab | folder_structure, filename_to_date, mission (time zones, entries), camera_models (resize, project, files read and written), vehicle (offsets), camera_system (camera.yaml, image lists, names) | console, bag files |
| correct_images | loaders, rescale, gamma, pixel_stat, attenuation, manual_balance, corrector selection/lists, numerical, curve_fitting filter, correct_images.yaml and its equivalence, choice of the configuration files, file_handlers, the parse, process, correct and rescale commands over dives and cameras | Bayer interpolation, distortion maps (OpenCV), memmap files |
| auv_cal | ransac, plane_fitting, cone_fitting, laser line search, pairing of images and detections, stratified sampling, triangulation, plane angles, uncertainty planes, plane through points, Euler extraction, camera calibration (description and order of corners, board points, padding, choice of views, matching of pairs, elimination rounds, choice of the solution; files read and written by the commands; text of the calibration files) | OpenCV's solvers and detectors, plotting |
| scripts | adjust_alr_to_biocam_time, extract_rosbag_images, simplify_nav_file, generate_nav_file_for_squidle, image_acquisition_stats | the others |

## Per-property plan

R = reals, Q = rationals, Z = integers; "induction" is over the input list/history.

Where a row below says *refuted*, the property itself is restricted to what holds, and the refuted
claim is its sibling with 100 added to the number (C02 and C102, ...); C82 to C93 come in such pairs
too.

| id | modelled | how proved |
|---|---|---|
| C01 | `interpolate` over Q | field/inequality reasoning |
| C02 | yaw branch of `interpolate_dvl`, of `interpolate_sensor_list`, `interpolate_camera` | case analysis; refuted for `interpolate_camera` (no wrap) |
| C03 | two-index scan of `interpolate_sensor_list` | refuted (tail dropped / extrapolated); bracket invariant under the guard that sensors outlast the track |
| C04 | index search of `interpolate_camera` | refuted for the first bracket (`if i > 1`); proved for later brackets |
| C05 | `body_to_inertial` over R | trigonometric identities |
| C06 | `inertial_to_body` over R | refuted; exact defect formula; holds iff the wrong entry is harmless |
| C07 | `correct_lever_arm`, `compute_angular_speeds` over R/Q | algebra, case analysis on index; two-sample tracks refuted |
| C08 | `dead_reckoning` fold | induction |
| C09 | proleptic Gregorian calendar + epoch arithmetic (Python `datetime`) over Z | arithmetic, era decomposition, round trip |
| C10 | `read_timezone`, `TimeZoneEntry.load` | case analysis; refuted (CET, numeric strings) |
| C11 | `get_folder`/`change_subfolder` on component lists | induction on path |
| C12 | `FilenameToDate` on character lists | induction on format |
| C13 | `line_is_valid` on byte lists | xor algebra, hex injectivity |
| C14 | `parse_interlacer` (sort keys, argsort) | permutation/stability by induction; order refuted for mixed digit counts, proved for equal integer digits |
| C15 | `usbl_filter` scans | sublist induction |
| C16 | predict/correct covariance recursion over any real field, any dimensions (mathcomp) | PSD/symmetry invariants by induction over operation lists |
| C17 | gate + counters of `correct` | invariant over histories |
| C18 | `run` merge loop | fuelled loop, well-founded measure, invariants |
| C19 | `save_ekf_to_list`/`update_camera_list` merge join | induction |
| C20 | wrapping functions over Q/R | loop invariant / floor arithmetic |
| C21–C24 | `pf.py` measure, resample, propagate with explicit object store, run loop | induction; aliasing refuted with explicit heap |
| C25 | tidal loop of `parse_single` | scan invariant; refuted at the ends |
| C26 | file-existence guards over an abstract file system | case analysis; two refutations |
| C27 | parsers as functions of module state | refuted by a two-dive history; proved for clean module state |
| C28 | `line_fit`, `correct_timestamps` | minimum over list, induction |
| C29 | nearest-pair search | argmin induction; uniqueness refuted |
| C30 | degree/minute decoders | arithmetic; refuted for `parse_usbl_dump` |
| C31 | GAPS line state machine | invariant; refuted |
| C32 | de-duplication loop | invariant for nondecreasing logs; refuted otherwise |
| C33 | RDI line state machine | refuted for the last ensemble; induction for the others |
| C34 | ACFR writer/parser field maps | refuted; exact transformation |
| C35 | combined RAW writer state machine | invariant over histories |
| C36 | export / from_json field maps per category | case analysis; Tide refuted |
| C37 | `write_csv`, row/header builders | induction; one-element list refuted |
| C38 | SPP upper-triangle loops | index reasoning |
| C39 | window filters | list filter reasoning |
| C40 | `merge_json_files` | induction |
| C41 | mission entry write/load | field maps; refuted for dropped fields |
| C42 | Welford recursions | induction, field arithmetic |
| C43 | attenuation gain formulas over R | exp positivity, field |
| C44 | `pixel_stat` + clipping | order reasoning |
| C45 | `gamma_correct` | power function monotonicity; refuted for whole-image branching |
| C46 | XVIII byte shuffling over Z | bit arithmetic, bijection |
| C47 | loader scaling | arithmetic |
| C48 | `rescale` integer geometry | integer arithmetic |
| C49 | image selection / binning | list alignment; refuted where lists are trimmed separately |
| C50 | finite-filter of pairs | refuted; holds when patterns coincide |
| C51 | camera resize | projective algebra; refuted |
| C52 | `is_equivalent` | boolean algebra |
| C53 | RANSAC loop with oracle samples | refuted; holds when stopping early |
| C54 | `Plane`, `build_plane`, `plane_through_3_points` over R/Q, in-place numpy views explicit | algebra; two refutations |
| C55 | piecewise affine clock map | induction on poll list |
| C56 | main/writer interleavings as a small-step system | refuted by a schedule; independent of schedule without later mutation |
| C57 | image list accumulation over dives | refuted; holds for the first dive |
| C58 | laser window scan | argmax induction |
| C59 | Slabaugh extraction over R | trigonometry, atan2 |
| C60 | stem filters | list reasoning; refuted for substring match |
| C61 | retry loop | induction over attempts |
| C62 | synchronisation loops of `process` over Q | scan invariants; refuted at the record's ends |
| C63 | variance propagation of `process` | inequalities; refuted where standard deviations are rotated as vectors |
| C64 | time zone/offset arithmetic of every parser | case analysis; refuted for RDI, rosbag and Voyis/Sonardyne text |
| C65 | EKF transfer function and Jacobian over R | derivatives with Coquelicot |
| C66 | smoother recursion (mathcomp) | PSD invariants; refuted for the first state and one-state runs |
| C67 | `get_prior` scan | refuted (displacement added and subtracted); independence of USBL by algebra |
| C68 | HyBis conversion, timestamps and rows | digit arithmetic, induction over the rows |
| C69 | `load_states` on tables | list reasoning |
| C70 | SPP edges | index reasoning, rotation algebra |
| C71 | altitude interpolation and seafloor depth loop | scan invariant; refuted at the ends |
| C72 | Voyis rows and file names | text reasoning |
| C73, C74 | RANSAC statistics, trimmed statistics | argmin induction; sortedness |
| C75–C77 | corrected-image list, channel dispatch, manual balance | list alignment; affine algebra |
| C78 | `usbl_offset` scan | scan invariant, sums; refuted for one fix and for slow fixes |
| C79 | quaternion to roll, pitch, yaw over R | trigonometry, cofactor identities |
| C80 | inertial dead reckoning: positions, attitudes, dropped first record | induction over velocities with index invariants, C08 for the positions |
| C81 | PHINS message state machine | induction over messages; invariants on pending fields; cycles in a fixed order |
| C82 | `parse_alr`, `parse_autosub`, `parse_koyo21rov` loops and records | the loop equals a filter on neighbours, by induction; generic lemma instantiated per category |
| C83 | the same loops on tables in any order, rows without position, mktime | the filter for any order; witnesses |
| C84 | NTNU DVL rows (NtnuModel) | `reported`: usable rows in order give their value; time, turn and deviations written out |
| C85 | the same with -32, midnight, zone | witnesses |
| C86 | EIVA NaviPac lines (EivaModel) | `written`: a line as words between white space; `reported` |
| C87 | the same with long and quoted labels, damaged lines | for all logs, and witnesses |
| C88 | the uses of the mounting offsets in DR, EKF, PF and cameras (PlaceModel) over R | against a rigid body's `place`; linear algebra |
| C89 | the same | exact errors for all inputs; witnesses |
| C90 | Vehicle and SensorOffset.load on YAML trees (VehicleModel) | `of_frame`, `of_camera`: look-ups written out |
| C91 | the same | for all files, and witnesses |
| C92 | CameraEntry.image_list, stamp_list on a listing of the raw folder (CamSysModel) | `lists`, `directly_in`, `somewhere_in`, `named`: paths as components |
| C93 | the same, and the name | witnesses |
| C94 | `Measurement.from_*` and the run on them (MeasModel, mathcomp, any real closed field) | `says`: components, values, variances written out; C18 instantiated |
| C95 | the same | witnesses |
| C96 | EkfState from/to records, build_state | matrix entries, square roots |
| C97 | `process_image` end to end (PipeModel on AttenModel, PixelModel), OpenCV steps as an argument | `seen`: the light of a surface at a distance; levels compared |
| C98 | the same | witness |
| C99 | `parse_single` from the mission's formats to the interlaced file (ParseModel), the parsers as an argument | `returned`, `treated`; C14 and C25 instantiated; table of formats checked by computation |
| C201 | AE2000 rows (Ae2000Model): text of the time, one step per category | `time_cell` writes the texts from the C09 calendar; `reported`; depths by `selects` and a statement on every prefix; turn by the C05 rotations |
| C203 | SeaXerocks FileTime.csv rows, index search, naming convention (SeaxModel) | `file_row` writes the lines from the C09 calendar; induction over rows with the rows already passed as context; conventions by injectivity of names |
| C205 | koyo20rov logs, interpolation at images, lever arms, names, speed filter (RovModel) | times from the C09 calendar; `leaders`/`used`/`value`/`sifted` as separate inductive specs; the scan by an invariant on the records passed |
| C207 | auv_nav/tools/graph.py (GraphModel) | depth-first search sound by induction on fuel, complete because a simple walk avoids the path so far; fuel irrelevant by counting unseen vertices |
| C209 | altitude bins of the attenuation training, one pixel (BinModel) | digitize by induction on the edges; ceiling bounds the last edge; row writes commute; `rows` lists the samples |
| C211 | laser calibration from image pairs to the sampled cloud (LaserCalModel) | merge of two increasing columns; floor = layer; counts of the layers as loop invariant; nearest by induction |
| C213 | triangulation, plane angles, uncertainty planes (TriModel; SVD by contract) | kernel of the 6x6 system for a rectified pair; atan2 directions; loop invariant |
| C215 | ROS bag worker and the from_ros methods over R | simulation of the worker by a per-message relation |
| C217 | NOC tide and NMEA text lines over Q and R | line grammars as inductive relations, slices of padded digits, induction over lines |
| C219, C220 | calibrator state (db, good_corners) over Q; file names as character lists | snoc-inductive greedy relation with uniqueness, minimum of distances |
| C221, C222 | cal_fromcorners recursion over R with the solver as argument | inductive rounds, first-least entry of the slots, induction on remaining iterations |
| C223, C224 | lines as ASCII lists; association as a scan over three sorted lists; records over R | join/split induction, suffix invariant of the scan, columns by literal position |
| C225, C226 | corners as lists of real points; index permutations for rot90; padding over Z and Q | algebra on the diagonals, acos, base-n digits, floor bounds |
| C227, C228 | folder as a function from file kinds to contents, commands as state transformers with a status | invariant of consistency, relational frame lemmas closed under composition |
| C229, C230 | rotation_matrix, _distance, _from_coeffs, ray_intersection of cone_fitting over R^3 | Rodrigues formula, Cauchy-Schwarz on the parts across the axis, roots of the quadratic |
| C231, C232 | the three scripts on tables by header, sorting by its contract; statistics over R | filter lemmas, permutations, triangle inequality |
| C233, C234 | the path from the logs to the poses over R, put together from the models of its steps | invariants of the scans, exactness of the trapezoidal rule, symmetry |
| C235, C236 | names as lists of code points, decimal text by digits, the folder as an association list | decimal round trip, minimum over pairs, permutation of the listing |
| C237, C238 | the disk as an association list from paths to contents; dives, cameras and configurations as records; image selection and contents as arguments | frame lemmas for writes and copies, induction over cameras and dives |
| C239, C240 | YAML trees (as for missions), readers that return a value, quit or raise; the files of a dive as a function from places; the shipped files written out | inversion of the readers, frame lemmas, computation on the shipped files |
| C241, C242 | YAML trees as above; the lists of process.py by their lengths, each thread as a record (folder, name, source, length, flag, posed) | inversion of the readers, string lemmas for the payload suffixes, exact characterisation of the list of threads by an inductive relation |
| C243, C244 | disk as a list of files, last written first; images and resampling abstract; steps that finish, quit or raise | induction over images and cameras; locality lemma (the written files depend only on what is outside the output folders) for idempotence |
| C245, C246 | texts as code points, numbers in Q, "%8f" with ties to even; the part of FileStorage needed as a reader by indentation | lemma per line (parse of the written line), Forall2 between lines and entries, then computation of the nodes; rounding is idempotent |
| C247, C248 | rows and images as records, times in Q, the filter as an argument with the contract of C18 | windows by list decomposition; pairing complete for increasing times (from C19), hence one state per image |
| C249, C250 | IEEE binary64 (Flocq) for the time stamp expressions | error of each rounding by its binade; order by monotonicity of rounding; equality across sources since a microsecond is never near a midpoint of the 2^-22 grid |
| C251, C252 | IEEE binary64 (Flocq) for interpolate, the heading wrap, dead reckoning and the layer of a point | (1 + e) factors multiplied out; induction over the track with a linear invariant; witnesses by computation |
| C253, C254 | parse_usbl_dump.py:21-218 as a function from lines to records; conversions as arguments | fields of a joined line; induction over the lines; witnesses by computation |
| C255, C256 | corrector.py:730-975, 1075-1085, 1230-1235, 1308-1364, attenuation.py:23-243, RunningMeanStd and pixel_stat over numpy arrays (shape and elements, broadcasting, squeeze); real arithmetic, the curve fit as argument | element of an array at a valid index; invariant of the running statistics; witnesses |
| C257, C258 | sensors.py:1750-1783, csv_tools.py:236-256, process.py:1187-1213; numbers as rationals | decimals of a rounded number; fields of a joined line; induction over the states; witnesses by computation |
| C259, C260 | convert.py:298-377, acfr_combined_raw.py:66-103, sensors.py to_acfr; reals | file as a list of tagged lines; scanning words; invariant of the latest altitude and orientation; witnesses |
| C261, C262 | parse_biocam_images.py:32-267 (ftype oplab), process.py:377-412, 1242-1297; exact times | files as lists of path parts; glob as predicates; pairing by C29; witnesses |
| C263, C264 | scripts/pixel_stats_folder.py; exact rationals, root a parameter, cv2.resize as linear interpolation | lines between neighbours; statistics by C42; witnesses |
| C265, C266 | plane_fitting.py:47-111, laser_calibrator.py:565-590, 767-890, 1067-1173; exact reals, least_squares as its result | the residual is the distance over n, so a longer normal costs less; tangent line for the minimum of the example; witnesses |
| C267, C268 | transformations.py:953-1400 (Euler angles and quaternions), 3 by 3 part of the arrays; exact reals | every one of the 24 sequences renamed to one of two generators, rotations as orthonormal rows with cofactors, atan2 of a unit pair, Hamilton product; witnesses |
| C269, C270 | transformations.py:195-505, 1668-1747 (turn, mirror, scale, project, compare); eig external | Rodrigues' formula and the height above a plane as specification, vector algebra; witnesses |
| C271, C272 | displayable_path.py:12-107, folder_structure.py:122-135; trees and disks as finite data | induction over trees, chains of flags against indentation, prefixes of paths; fuel above the longest path; witnesses |
| C273 | BinImgModel: compute_distance_bin, create_memmap, median_array, running_mean_std over whole arrays | BinImgProps: medians by sorting, order and majority, bins feed C255 |
| C274 | the same | witnesses |
| C275 | RosImgModel: Camera of ROS bags, the loader of rosbag.py, Loader and its set-up in Corrector | RosImgProps: first message that answers for a time, round trip through auv_nav |
| C276 | the same | witnesses |
| C277 | VirtualModel: project_point, triangulate_point, return_valid, rectification, the virtual laser images | VirtualProps: round trip through C213, invariant of the columns of the images; VirtualLaserProps: detection by C58 |
| C278 | the same | witnesses |
| C279 | AlrFilesModel: logs as lines, files as header and rows, names replaced letter by letter | reading of lines by split and numerals; induction over the files with the inputs unchanged |
| C280 | the same | witnesses |
| C281 | AcfrModel's poses and FramesModel's rotation | turns about axes conjugated by a quarter turn; rows bounded by Lagrange's identity |
| C282 | the same | witnesses |
| C283 | Mission0Model: the two image loaders by version and the payload mapping over MissionModel's trees | unfolding both loaders on the upgraded section; induction over the payloads |
| C284 | the same | witnesses |
| C285 | OverviewModel: the sorting into categories and frames, the rate and the labels of the points | invariant that each list is the filter of the records so far; Permutation; induction over the differences |
| C286 | the same | witnesses |
| C287 | DecompModel: shear_matrix, compose_matrix and decompose_matrix over the reals | Gram-Schmidt with its uniqueness; C263's Euler angles; adjugate inverse |
| C288 | the same | witnesses |
| C289 | StampFileModel: read_timestamp_file and the look-up of an image's number | relational spec of columns and rows; C12's digits |
| C290 | the same | witnesses |
| C291 | FolderModel: compute_max_brightness.py with find_images_with_artefacts.py | order-preserving selection; largest element |
| C292 | the same | witnesses |
| C293 | FolderModel: debayer_folder.py | induction over any order of the images; stems with one extension |
| C294 | the same | witnesses |
| C295 | SharpModel: _is_sharp, with OpenCV's Laplacian | variance under scaling; indices of the cut rectangle |
| C296 | the same | witnesses |
| C297 | PayCsvModel: generic_csv_payload_parser over typed columns | relational spec of cells and column types |
| C298 | the same | witnesses |
| C299 | PhinsAcfrModel: velocity branch of PhinsParser.process_line for the ACFR format, build_rdi_acfr | parts of the log by an invariant, cycles by shuffles |
| C300 | the same | witnesses |
| C301 | ImgSizeModel: get_image_size, rosbag_image_loader, image_properties, start of the corrector | first-match spec |
| C302 | the same | witnesses |
| C303 | DrawModel: draw_laser over files and pixels | induction over marks and pairs |
| C304 | the same | witnesses |
| C305 | LaserCfgModel: settings of LaserCalibrator.__init__, files of calibrate_laser, shipped laser section | table of settings as spec |
| C306 | the same | witnesses |
| C307 | OutNameModel/OutNameProps: names of corrected images and their list | all lists, folders, tables |
| C308 | the same | witnesses |
| C309 | StereoViewsModel: StereoCalibrator.collect_corners, Calibrator.get_corners | inductive spec of usable and used pairs |
| C310 | the same | witnesses |
| C311 | CellModel: orthogonalization_matrix over the reals | algebra from sin^2 + cos^2 = 1 |
| C312 | the same | witnesses |
| C313 | ClipModel: clip_matrix over the rationals | sign of the differences, quotients cleared |
| C314 | the same | witness |
| C315 | BallModel: Arcball and its helpers over the reals | invariant over all sequences of operations; Cauchy-Schwarz |
| C316 | the same | witnesses |
| C317 | DeclinModel: the declination of Usbl over the reals; the conversion to latitude and longitude is an argument | addition theorems |
| C318 | the same | witnesses |
| C200 | the same | witness |
| C102, C103, C104, C106, C107, C109, C110, C111, C112, C113, C114, C118, C119, C121, C122, C123, C124, C125, C126, C127, C128, C129, C130, C131, C132, C133, C134, C136, C137, C139, C140, C141, C142, C143, C144, C145, C146, C147, C148, C149, C150, C151, C152, C153, C154, C155, C156, C157, C158, C159, C160, C161, C162, C163, C164, C166, C167, C168, C169, C170, C171, C172, C173, C174, C175, C176, C178, C179, C180, C181 | the same code as the property numbered 100 lower | the claim without that property's preconditions, refuted by witnesses; some with theorems saying exactly what happens instead |
