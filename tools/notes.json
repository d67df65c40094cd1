{
 "C01": {
  "note": "Exact rationals; floating-point rounding not modelled."
 },
 "C02": {
  "note": "Exact rationals. For cameras interpolated from another camera's track see C102."
 },
 "C03": {
  "note": "Exact rationals. All track samples have a covariance or none has. For the last track interval and for records that end earlier see C103."
 },
 "C04": {
  "note": "Exact rationals; headings as numbers (see C102). For the first bracket see C104."
 },
 "C06": {
  "note": "The exact condition, as an iff."
 },
 "C07": {
  "note": "Reals for the correction, rationals for the rates; two-sample tracks: all but the last sample. For the arm that processing passes see C107."
 },
 "C09": {
  "note": "Exact rationals for sub-second parts. For the day on other computers see C109."
 },
 "C10": {
  "note": "Names in one case (upper or lower). For bst and for names read by the parsers themselves see C110."
 },
 "C102": {
  "note": "Refuted: interpolate_camera has no wrap handling; between 350 and 10 it reports 180."
 },
 "C103": {
  "note": "Refuted: in the last track interval only one sample is kept; when the record ends before the next track sample, samples are extrapolated; when the whole record lies in the first track interval, the end of the track is mixed with its start. What holds is C03."
 },
 "C104": {
  "note": "Refuted: the test i > 1 should be i > 0; the pose jumps to the second sample."
 },
 "C106": {
  "note": "Refuted: wrong factor in inertial_to_body.py:70."
 },
 "C107": {
  "note": "Refuted: with this arm the term is doubled instead of removed (C107_lever_arm_term_doubled, for all inputs); the last sample of a two-sample track raises."
 },
 "C109": {
  "note": "Refuted: epoch_to_day uses local time."
 },
 "C11": {
  "note": "Paths as lists of components."
 },
 "C110": {
  "note": "Refuted: the parsers' table gives cet the offset 0; bst is rejected by the loader; an unknown name raises UnboundLocalError."
 },
 "C111": {
  "note": "Refuted: below a folder called raw, the raw counterpart of a processed path is the processed path itself."
 },
 "C112": {
  "note": "Refuted: fractions of one or two digits are read as milliseconds; with a format without seconds no file name is decoded."
 },
 "C113": {
  "note": "Refuted: trimming can remove characters whose exclusive-or is zero."
 },
 "C114": {
  "note": "Refuted: stamps are sorted as text (10.0 before 9.0); an empty list raises."
 },
 "C118": {
  "note": "Refuted: a step from before the end to a measurement after it is still made. At most one such step: C18_stops_at_end."
 },
 "C119": {
  "note": "Refuted: the second of two images with one stamp is lost; a state after the last dead-reckoning sample raises and loses all."
 },
 "C12": {
  "note": "For shorter formats see C112."
 },
 "C121": {
  "note": "Refuted: when the reweighted total is below 1e-20, a constant is added before the division and the weights sum to less than one half, which also prevents resampling. Such likelihoods occur (C21_likelihood)."
 },
 "C122": {
  "note": "Refuted: weights are copied with the particles; with offset 0 (which uniform() can return) a particle of weight 1/2 of two is lost."
 },
 "C123": {
  "note": "Refuted: depth, attitude and velocity are overwritten by the next propagation (exactly: C23_recorded_content), and the altitude is always that of the prior (C123_altitude_frozen)."
 },
 "C124": {
  "note": "Refuted: the first fix in the span is skipped; with more early fixes than samples there is an IndexError."
 },
 "C125": {
  "note": "Refuted in the last interval, at the first sample and for unordered depths."
 },
 "C126": {
  "note": "Refuted: an existing empty processed folder counts as parsed; the merge output, converted camera and centre csv files, mission.cfg, results of relative-pose runs and plots are overwritten."
 },
 "C127": {
  "note": "Refuted: the stereo parsers keep timestamps in module globals; stale stamps and false pairs."
 },
 "C128": {
  "note": "Refuted: with one pair it raises, whatever the number of laser images (C28_succeeds: exactly then)."
 },
 "C129": {
  "note": "Refuted: one right image is paired with two left images; without right images the BioCam and NTNU parsers raise (C129_no_right_image, always)."
 },
 "C13": {
  "note": "Blanks are the characters Python strips. For blanks inside the line see C113."
 },
 "C130": {
  "note": "Refuted: in the south and west the result is off by twice the minutes (C130_dump_error, always)."
 },
 "C131": {
  "note": "Refuted: broken packets are always reported (C131_check_is_dead: the flag never matters), headings through north, stale headings, unbound variables."
 },
 "C132": {
  "note": "Refuted: a step back breaks the order and loses an unrelated record; a first stamp of 0 raises."
 },
 "C133": {
  "note": "Refuted: the last ensemble is never reported; each attitude carries the previous ensemble's timestamp (C133_orientation_shifted, exactly)."
 },
 "C134": {
  "note": "Refuted: attitudes are converted to degrees twice and turned (C134_stereo_attitude, exactly); the right camera comes back at the left one's place; the vehicle header is one line short, so the first pose is lost and the origin is wrong (C134_vehicle_origin, always)."
 },
 "C136": {
  "note": "Refuted: no tide record can be read back (C136_tide_never); the stamp becomes the DVL's; a single image is only read as camera1; the linear model gives negative deviations for negative velocities."
 },
 "C137": {
  "note": "Refuted, each with a witness."
 },
 "C139": {
  "note": "Refuted: the stamps of body velocities (DVL clock) and of the second camera can be outside, BioCam laser records get no stamp, and the default window loses records when the file is not in time order."
 },
 "C14": {
  "note": "For other stamps and no records see C114."
 },
 "C140": {
  "note": "Refuted: BioCam laser records have no file name of their own and raise KeyError."
 },
 "C141": {
  "note": "Refuted: USBL options, mounting frames, camera topic and second offset, cameras without a frame, payloads."
 },
 "C142": {
  "note": "Refuted, each with a witness."
 },
 "C143": {
  "note": "Refuted: two samples at the same altitude give infinite parameters."
 },
 "C144": {
  "note": "Refuted: clipping moves it."
 },
 "C145": {
  "note": "Refuted: black becomes negative, and one formula is chosen for the whole image."
 },
 "C146": {
  "note": "Refuted: trailing bytes are ignored."
 },
 "C147": {
  "note": "Refuted: deeper images round to 1, XVIII pixels above the bit depth, bag images of another depth."
 },
 "C148": {
  "note": "Refuted: empty images and crops for extreme factors; the altitude is looked up by substring, so image_12 is ambiguous with image_1."
 },
 "C149": {
  "note": "Refuted: the altitude list is not shortened with the images; images near the maximum are in no bin when the range is not a whole number of bins."
 },
 "C15": {
  "note": "All theorems for arbitrary lists; depth agreement for time-ordered records. Exact reals, no rounding."
 },
 "C150": {
  "note": "Refuted when an altitude and an intensity are missing at different places."
 },
 "C151": {
  "note": "Refuted: the whole projection matrix is multiplied, so projections do not change (C151_projection_unchanged, always); a stereo calibration file ignores the ratio."
 },
 "C152": {
  "note": "Refuted: without a colour section the comparison raises, with nan it is not reflexive; the training altitude range is not compared."
 },
 "C153": {
  "note": "Refuted: the last iteration's inliers are returned, refitted to their first three points."
 },
 "C154": {
  "note": "Refuted: the normal, a view, is divided twice (C154_from_coeffs gives the plane obtained); build_plane contains its point iff both tangents vanish or the parallel plane through the origin does (C154_build_plane); the intersection may be behind."
 },
 "C155": {
  "note": "Refuted: only the first BioCam time of a poll is checked for order; a single poll cannot correct anything."
 },
 "C156": {
  "note": "Refuted for the first camera's EKF poses when SLAM output is on."
 },
 "C157": {
  "note": "Refuted: only the last dive is used for colour correction; lists are doubled for manual balance."
 },
 "C158": {
  "note": "Refuted: the window ending at the last row of the range is not tried."
 },
 "C159": {
  "note": "Refuted within the tolerance of gimbal lock."
 },
 "C16": {
  "note": "Any dimension, any real field, arbitrary operation histories; matrix inverses as given by mathcomp (total, 0 when singular)."
 },
 "C160": {
  "note": "Refuted: bare stems with dots are missed; rescaling matches by substring."
 },
 "C161": {
  "note": "Refuted: the returned path is the same after failure; a recovered write raises, always."
 },
 "C162": {
  "note": "Refuted: the first in-range record is dropped when exactly one orientation precedes the velocity record, and depth before its first sample mixes last and first sample."
 },
 "C163": {
  "note": "Refuted: the rotated standard deviation can be negative."
 },
 "C164": {
  "note": "Refuted for RDI, ROS bags, Voyis and Sonardyne text."
 },
 "C166": {
  "note": "Refuted for the first state; and a run of a single state is smoothed to nothing (C166_single_state_dropped)."
 },
 "C167": {
  "note": "Refuted: the displacement is added and subtracted again."
 },
 "C168": {
  "note": "Refuted: except in the last segment the parser uses the segment after the image and extends it backwards (C168_backwards, always); headings are interpolated the long way round; a zero in the first record is filled from the last record, a double gap with a line to zero."
 },
 "C169": {
  "note": "Refuted when the end comes before the start."
 },
 "C17": {
  "note": "Exact gate (strictly below the threshold) and report counters for arbitrary histories."
 },
 "C170": {
  "note": "Refuted for gaps in the numbers, for names without a number, and for the sign of the displacement."
 },
 "C171": {
  "note": "Refuted: an IndexError when the last altitude is not after the first depth; with fewer than two depths always (C171_no_depth)."
 },
 "C172": {
  "note": "Refuted: SYSTEM names are never recognised because a slice of three characters is compared with six, so the SYSTEM times are never used (C172_system_unused); laser records carry the names of stills images."
 },
 "C173": {
  "note": "Refuted: errors of opposite sign cancel, a sample whose inliers all lie below it wins against one without error."
 },
 "C174": {
  "note": "Refuted: nothing is left after trimming (C174_images_nan, always)."
 },
 "C175": {
  "note": "Refuted: two images with the same stem in different folders share one output."
 },
 "C176": {
  "note": "Refuted: manual balance of grey images raises; the red subtractor is applied to blue."
 },
 "C178": {
  "note": "Refuted: a single fix inside the track stops the program (C178_single, always), and slower fixes that start before the track are compared with the wrong part of it. The first fix is never used."
 },
 "C179": {
  "note": "Refuted: apply_offset turns (roll, pitch, yaw) as if it were a vector, so an offset of 90 degrees leaves the heading and can make the roll deviation negative."
 },
 "C18": {
  "note": "Any dimension and motion model. For the step after the end see C118."
 },
 "C180": {
  "note": "Refuted: with several velocities between the first two orientations only one is dropped and the rest are published without attitude, and a velocity before the first orientation is put on the line through the last and the first one."
 },
 "C181": {
  "note": "Refuted: stale depth time and stale altitude around broken messages, the date after midnight. In logs with TIME after the attitude or LOGDVL before LOGIN_ records come one cycle late (C181_attitude_late, C181_altitude_late, always)."
 },
 "C19": {
  "note": "For images sharing a stamp and for states after the dead reckoning see C119."
 },
 "C20": {
  "note": "Reals; the recursion terminates for every input."
 },
 "C200": {
  "note": "Refuted: biocam4000_15c is read by the same parser but not corrected."
 },
 "C201": {
  "note": "ftype oplab; pandas' reading of the table is outside the model, values are reals, dvl_validBottom an integer or NaN."
 },
 "C202": {
  "note": "Refuted: '.5' is read as 5 ms; whole seconds raise; the velocity section's offset is used for every category; heading 360 is kept; repeated depths are not reported."
 },
 "C203": {
  "note": "ftype oplab; lines already stripped; int() of digits only; the disk is a predicate on paths."
 },
 "C204": {
  "note": "Refuted: an empty stereo line raises IndexError; the naming convention is guessed from the last image only, wrongly if it is missing or numbered 1111xxx; a leading slash stays in the serial."
 },
 "C205": {
  "note": "Values exact rationals, NaN as None; csv and pandas reading give rows (None for a row that fails); body_to_inertial and the lat/lon conversions are parameters assumed linear where needed (body_to_inertial is, C05)."
 },
 "C206": {
  "note": "Refuted: the first row of each log only sets the reference time; a zero in the first position is extrapolated from the last and second; 359 to 1 degrees gives 180; an empty list of kept images raises; the glob [!FIX] excludes any name ending in F, I or X; a NaN position hides a jump; the first record is paired with the last (index -1), whose NaN spoils it."
 },
 "C207": {
  "note": "Vertices are numbers; the dictionary is a list of keys with neighbour lists; set.pop takes an arbitrary element."
 },
 "C208": {
  "note": "Refuted: add_edge makes a set of the pair and pops it, so the direction is arbitrary; only one end becomes a key; the search is depth first."
 },
 "C209": {
  "note": "One pixel; exact rationals (np.arange accumulates no rounding); trimmed mean, median, RANSAC smoothing and the random sample are arguments; figures and memory map files left out."
 },
 "C21": {
  "note": "Rationals for weights, reals for the likelihood. For vanishing likelihoods see C121."
 },
 "C210": {
  "note": "Refuted: images at the largest altitude, beyond the last edge or in bins of nine are unused; a random sample of the images keeps the distance of the whole bin; a zero mean is replaced by altitude_min plus the bin offset, outside the bin if the ranges differ."
 },
 "C211": {
  "note": "Exact rationals; the triangulation and the rectification are arguments; shuffling is any permutation; image rectification and the detector are in C58 or external."
 },
 "C212": {
  "note": "Refuted: up to 500 images all pairs in list order are processed, synchronised or not; beyond, an unpaired image ends in IndexError; an image without detections makes the cache unreadable; a cache written with one laser gives no points for the second; two left images can share a right one."
 },
 "C213": {
  "note": "Real arithmetic; numpy.linalg.svd is its contract (a unit vector minimising the residual); min_dist > 0, that is, the inliers are not all equal in y and z."
 },
 "C214": {
  "note": "Refuted: self.uncertainty_planes is not emptied between the lasers, so the second laser always gets the planes of the first; inliers on a line never give a plane; at 90 degrees the sign of the normal decides."
 },
 "C215": {
  "note": "Over the reals; geographiclib is an argument. For what goes wrong see C216."
 },
 "C216": {
  "note": "Refuted nine ways: acfr output is always empty; the time zone's hours are scaled by 60; messages after an unknown type are dropped; deviations are turned as a vector; a Teledyne -32768 is used; the pressure's deviation; the latitude's deviation; a satellite fix's variance as deviation; an Evologics fix keeps the deviations of the message before."
 },
 "C217": {
  "note": "int() and float() of blank-padded decimals are modelled; pynmea2 and the geodesic solver are arguments."
 },
 "C218": {
  "note": "Every part is false of the code: parse_tide_CTI.py:53-55 skips six lines, the parsers pass std_offset as the factor of Tide (sensors.py:1532), parse_tide_CTI.py:75-76 cuts the last character when there is no second comma, parse_NOC_nmea.py:64 reads the digits of the fraction as milliseconds, :52 compares a number with the label, and sensors.py:1357-1358 divides the depth (not the deviation) by 111111 and multiplies by the cosine."
 },
 "C219": {
  "note": "The parameters of a view, the blur test and the time stamps in names are arguments; names of the biocam form follow the same loop as those with a camera code."
 },
 "C22": {
  "note": "For the offset 0 and the weights afterwards see C122."
 },
 "C220": {
  "note": "Every part is false of the code: cal_from_json (camera_calibrator.py:528) empties good_corners but not db; the greedy choice depends on the order; 1010 and 1031 take the nearest right view even if it is already used; 974-977 look at the first name of each side."
 },
 "C221": {
  "note": "OpenCV's solvers and the corner detection are arguments, with one error per view as hypothesis."
 },
 "C222": {
  "note": "Every part is false of the code: 1306 goes through db while good_corners has shrunk; 1320 is a strict comparison with mean plus twice a deviation of zero; 1255-1256 quits inside the recursion; 1339-1347 restores R, T, E and F but not the rectification of 1289; 845 makes the maps for the last solution; calibrations (517) is never emptied."
 },
 "C223": {
  "note": "strptime, float() of MRT values and the geodesy are arguments; the records' constants of the GGA variants are not modelled."
 },
 "C224": {
  "note": "Every part is false of the code: 548-553 appends the previous observation again; 524-533 builds 20 values for 19 fields; 593-599 takes the first at or after; 639-640 globs the stem with an underscore; 656 reads an attribute of None; 275 takes the date from the file name; 824 is outside the try of the rows; 762 subtracts the offset that 620 adds."
 },
 "C225": {
  "note": "OpenCV's detectors and the refinement of corners are arguments; pixels are reals and the ratios of image sizes exact."
 },
 "C226": {
  "note": "Every part is false of the code: 195 and 203 index with row * n_rows instead of row * n_cols; 180-189 decide by one diagonal; 361-364 divide by width - border, which may be negative; 286-290 repeat the same dimensions; 485 compares only the height."
 },
 "C227": {
  "note": "Detection and solvers are functions of the images; files are named by what they hold, so that coinciding names are left out; so are missing entries in calibration.yaml. C219 is the equality of fresh and reloaded detections used."
 },
 "C228": {
  "note": "Refuted: the second pair is never calibrated once the first one is there; its other direction and the plane of the second laser are overwritten without -F; -FF keeps the calibration of a resized camera; the third camera is looked for in the raw folder only; one camera with fewer than eight images ends the run; laser ends without planes if it has to calibrate the first pair while the second is there."
 },
 "C229": {
  "note": "Real arithmetic; the optimiser is left out, as is whether numba accepts the array of points (its signature names a vector)."
 },
 "C23": {
  "note": "Explicit heap of shared arrays; arbitrary operation histories. For depth, attitude, velocity and altitude of earlier entries see C123."
 },
 "C230": {
  "note": "Refuted: the direction is normalised, so that the number is at most one at any distance; on the axis it is the cosine times the distance instead of the sine; an axis pointing backwards is turned round, which gives the mirror image; a ray parallel to a line of the cone divides by zero; mirror image and points behind the camera are returned."
 },
 "C231": {
  "note": "pandas is its contract: sort_values returns a permutation by time (not stable); missing columns and NaN are left out; thumbnails are only counted for the console."
 },
 "C232": {
  "note": "Refuted: two folders of the table with a file of the same name give one image two rows; other pictures in the folder or capital extensions prevent the file; 59.9997 minutes are printed as 60.000; across the antimeridian the box goes round the globe; the way between two stays at the bottom counts; rows out of order lengthen the distance."
 },
 "C233": {
  "note": "Over the reals. Uncertainties and the USBL offset's value are left out (C78); the filters are elsewhere (C12-C23)."
 },
 "C234": {
  "note": "False: witnesses for all four parts. The lever-arm correction has the wrong sign (C89), the origin's position is interpolated linearly, one slice of compute_angular_speeds is missing, the first record is deleted when exactly one orientation is before the first velocity."
 },
 "C235": {
  "note": "float() is exact, unsigned decimals only; pixels are opaque."
 },
 "C236": {
  "note": "False: witnesses for all five parts. Both lists of names are read from the first camera's folder, so an image is always nearest to itself; name[5:-5] cuts one digit too many."
 },
 "C237": {
  "note": "Image selection, parameter values and the developed image are arguments (modelled in SelectModel, BinModel, PipeModel); plots, logs, filelist.csv and empty folders are left out."
 },
 "C238": {
  "note": "False: witnesses for all parts. correct passes one text where parse expects a list of paths, and lacks the memmap arguments, so it never finishes with a configured camera (C238_correct_never); bag cameras read an attribute mission.image does not have (C238_bag_never)."
 },
 "C239": {
  "note": "YAML files are the trees that safe_load makes of them; reading a timestamp file (FilenameToDate) is an argument; mission files of version 0 are not modelled. The shipped files are written out in DefaultsModel.v."
 },
 "C24": {
  "note": "For fixes before the first sample see C124."
 },
 "C240": {
  "note": "False: witnesses for all parts. The type of a mission camera is never set; names with slashes are only rewritten on one side; unagi has no default; the 1x1 gain of biocam4000_15c is indexed as 3x3; target_pixel_size is divided by 100 (C240_metres_never)."
 },
 "C241": {
  "note": "The tracks are reduced to the lengths of their lists and whether their records got poses; a text or list in place of a mapping is an exception; float() of a text is an argument; plots and raw sensor files are left out."
 },
 "C242": {
  "note": "False: witnesses for all parts. Without usbl_filter or plot_output a variable is never assigned (C242_sections_needed)."
 },
 "C243": {
  "note": "Pillow's resampling, the order of os.listdir and the images are arguments; folders are relative to the processed folder."
 },
 "C244": {
  "note": "False: witnesses for all parts."
 },
 "C245": {
  "note": "The reader is the part of OpenCV's FileStorage these files need (indented key: value lines, !!opencv-matrix); decimals are read exactly, not rounded to doubles."
 },
 "C246": {
  "note": "False: entries below 5e-7 become 0 (a whole fundamental matrix can), eight coefficients are written with cols: 5, to_str takes the first column of a row, and StereoCamera.to_str puts two keys on one line."
 },
 "C247": {
  "note": "The filter is an argument with the contract proved in C18; times read back from the file may differ from those of the images."
 },
 "C248": {
  "note": "Refuted by witnesses: two cameras, one image, a dropped row, a covariance row of another image, an unknown last identifier, poses at the origin in the file named at_dvl, lost columns, a last time read early by any amount."
 },
 "C249": {
  "note": "Flocq's binary64 with rounding to nearest even; decimal literals are the nearest floats. utc_stamp takes CPython's int / int division as correctly rounded."
 },
 "C25": {
  "note": "For the ends of the record and unordered lists see C125."
 },
 "C250": {
  "note": "Refuted: two ROS stamps 100 ns apart get one time (C250_ros_distinct_refuted); \"1.001\" ms is read as 1000 us because int() truncates 1000.9999999999999 (C250_koyo_refuted). What holds: C249."
 },
 "C251": {
  "note": "Flocq's binary64. body_to_inertial in apply_offset, whose result is wrapped, is not part of this model (C05 and C179 model it over R)."
 },
 "C252": {
  "note": "Refuted: with min_z 1, max_z 15 and 5 layers the float just below 15 gets layer 5 and IndexError is raised (C252_layer_refuted; C211 is the statement in exact arithmetic); interpolating from (50, -7.6) to (64, 2.4) at 64 gives more than 2.4 (C252_end_refuted); a heading of -1e-18 becomes 360 (C252_yaw_refuted). What holds: C251."
 },
 "C253": {
  "note": "int(), float(), date_time_to_epoch and the geodesic conversions are arguments. The ship's part of a record is constant in the code and left out."
 },
 "C254": {
  "note": "Refuted: a blank last line raises IndexError and the file gives nothing (C254_blank_refuted), so does 09:00:05.5 through int() (C254_second_refuted); the standard deviations in degrees are negative (C254_std_refuted, in general C253_negative); 26-30.000 S is read as 25.5 degrees south (C254_south_refuted, see C130). What holds: C253."
 },
 "C255": {
  "note": "Real arithmetic: the rounding to float32 and NaN are not modelled. The curve fit is an argument (see C50, C143 and C150)."
 },
 "C256": {
  "note": "Refuted: two images of value 1 are counted as black and come out as 1, not 0.3 (C256_bright_refuted); images of 9 by 11 pixels give range() a step of 0 (C256_small_refuted); 100 by 1 pixels come out 100 by 100 (C256_width_refuted); one processor gives n_jobs = 0, which joblib refuses (C256_one_cpu_refuted); the last row of an image of 8 by 2 has no figure (C256_figures_refuted). What holds: C255."
 },
 "C257": {
  "note": "Numbers are rationals: a float formats as its exact value does; -0.0 is left out. metres_to_latlon, body_to_inertial and str() of a float are arguments."
 },
 "C258": {
  "note": "Refuted: a state with a longitude and no latitude stands at 0, 0 (C258_longitude_refuted); with a latitude and no longitude it ends the file (C258_missing_refuted), as any missing value does, the following states being lost (C258_rest_refuted); two states of one second may have equal rows (C258_second_refuted); the particle filter's states at the DVL get the pair as longitude and no latitude, and 23 cells for 22 names (C258_dvl_refuted). What holds: C257."
 },
 "C259": {
  "note": "Numbers are reals (rounding of sqrt and atan2 is left out) and str(float(x)) is any function giving one word; names hold no line break."
 },
 "C26": {
  "note": "File system as a map from paths. For the remaining outputs see C126."
 },
 "C260": {
  "note": "Refuted: a target straight below gets the horizontal range -1 (C260_below_refuted); the bearing is taken from the mission's origin, not the ship (C260_bearing_refuted); an unknown slant range is written None (C260_unknown_refuted); a single camera's image is written twice (C260_twice_refuted) and a missing second image as a line without time and name (C260_missing_refuted); a blank in a name splits it (C260_blank_refuted); depths have the time of their own clock, so lines need not be in order (C260_order_refuted). What holds: C259."
 },
 "C261": {
  "note": "Times are exact rationals; int() takes digits only; glob is its documented matching of * and ** (no name starting with a dot); pairing is that of the first dive of a run (StereoModel)."
 },
 "C262": {
  "note": "Refuted: the first camera's laser images are taken for images of pairs (C262_first_refuted), and then the second camera's are put at the first's position (C262_position_refuted); with biocam4000_15c the position is that of a third camera (C262_format_refuted); .jpg or .txt in a folder's name (C262_folder_refuted, C262_text_refuted); ._ counts for one camera only (C262_dots_refuted); calibration images are paired with strobe images (C262_light_refuted); times before 2000 are 0 (C262_clock_refuted); short names never work (C262_short, C262_name_refuted), nor six parts (C262_parts_refuted). What holds: C261."
 },
 "C263": {
  "note": "Exact rationals for float32 and float64; the square root is a parameter; cv2.resize is linear interpolation between centres (its third argument is the output, not the method, so that INTER_CUBIC is not used). Names of output files, the progress bars and image_raw_mean.np are not modelled."
 },
 "C264": {
  "note": "Refuted: a value of 1 becomes 256 and as a byte 0 (C264_white_refuted); mean and deviation are transposed (C264_own_mean_refuted); grey, four-channel and mixed folders raise (C264_grey_refuted, C264_alpha_refuted, C264_sizes_refuted); equal images give NaN (C264_alike_refuted). What holds: C263."
 },
 "C265": {
  "note": "Exact reals; least_squares is taken as its result, for the bounds on n as an exact minimum of its cost within its bounds (an example of which is proved). The first coefficient is not 0. repr of floats in the yaml text, plots and messages are not modelled; the numbers of a PLY file are rationals."
 },
 "C266": {
  "note": "Refuted: from_coeffs divides the normal twice, so that the threshold is stretched by up to the root of 3, shown at a proved minimum (C266_threshold_refuted); C266_mean_refuted; C266_inliers_refuted, C266_three_refuted (no or few inliers raise); max_cloud_size only limits a saved file (C266_size_refuted); header lines are indented (C266_ply_refuted); five decimals (C266_precision_refuted). What holds: C265."
 },
 "C267": {
  "note": "Exact reals, without rounding; names are ASCII. The rotations are 3 by 3 matrices; the fourth row and column of the code's arrays are those of the identity. slerp of quaternions within the limit of parallel returns the first one; the constant speed is proved for spin 0 and the cosine of the ends within that limit of -1 and 1."
 },
 "C268": {
  "note": "Refuted: an odd spin takes the sine of the shorter angle and the squared norm reaches 3 (C268_spin_refuted); just before the end slerp is near the opposite quaternion, at the end it is the given one (C268_jump_refuted); euler_from_matrix and quaternion_from_euler lower the name, euler_matrix does not (C268_case_refuted); a middle angle between 0 and pi of a z,y,z sequence comes back negative (C268_middle_refuted). What holds: C267."
 },
 "C269": {
  "note": "Exact reals. The direction and point of rotation_from_matrix are taken as kept ones; numpy.linalg.eig, which finds them, is external. Matrices have the last row of the identity but for the perspective ones and is_same_transform. The inverse functions for reflection, scale and projection, and clip, shear, compose, decompose, superimposition, orthogonalization and Arcball are not modelled."
 },
 "C27": {
  "note": "What happens to the later dives is the last theorem; see C127."
 },
 "C270": {
  "note": "Refuted: numpy.allclose has a relative tolerance of the second argument: translations 10 m apart at 1000 km are the same (C270_far_refuted), it is not symmetric (C270_symmetric_refuted) and not transitive (C270_chain_refuted). What holds: C269."
 },
 "C271": {
  "note": "Folder trees are finite (no link leads back up), names are texts of code points lowered one by one; access rights are not modelled. The names of a folder are read before its first entry is removed, as os.listdir does. Links lead to what is no link itself."
 },
 "C272": {
  "note": "Refuted: this_depth counts the folders passed side by side, so later ones are not opened (C272_hidden_refuted); last folders do not count, so a chain of them is opened without end (C272_deep_refuted); names equal but for case keep the order of iterdir (C272_case_refuted); is_dir follows links, so the contents of a linked folder are removed, after which rmdir of the link raises (C272_link_refuted). What holds: C271."
 },
 "C273": {
  "note": "Real arithmetic (no rounding to float32, no NaN); cv2.resize and random.sample are arguments; smoothing ransac_mean is left out (C73)."
 },
 "C274": {
  "note": "Refuted: with mean_trimmed one channel raises (four indices for three dimensions) and three channels give NaN everywhere (the number of rows, one, is trimmed); an entry that is None quits; colour images of a one-channel camera raise."
 },
 "C275": {
  "note": "Over the reals; decoding of a message (cv_bridge, cv2.imdecode) and bag.read_messages are outside."
 },
 "C276": {
  "note": "False: the mission's image entry has no attribute timeoffset, so setting up a camera with extension 'bag' raises; with it, the offset lacks the hours of the zone that auv_nav subtracts; of two images within 5 ms the first is given for both; an image recorded later than half a second after its stamp is not found; a bag that does not open raises; format acfr lists no image. What holds is C275."
 },
 "C277": {
  "note": "Over the reals; the SVD by its contract as in C213; the lens of undistort_point without distortion."
 },
 "C278": {
  "note": "Refuted: a line exactly on a row is drawn in black; one within the last row raises IndexError; a point behind the camera gets a pixel; of the plane only d is used; the step is stretched if it does not divide the range; rectification multiplies pixels, not directions, by R, so a point seen by the rectified camera is given none."
 },
 "C279": {
  "note": "A csv is its header and rows of numbers; lines come without their end; distinct names are distinct files."
 },
 "C28": {
  "note": "The regression is an argument; rationals. For a single pair see C128."
 },
 "C280": {
  "note": "Refuted: only the first file after each -a is corrected, folders with .csv in their names are renamed in the output path, and an empty table or a truncated poll line stops the run."
 },
 "C281": {
  "note": "Real trigonometry; uses AcfrModel's entries (degrees) and FramesModel's rotation."
 },
 "C282": {
  "note": "Refuted: roll and pitch are swapped in order for stereo frames turned about both image axes, and the vehicle parser reads the file's roll as pitch."
 },
 "C283": {
  "note": "YAML as trees (MissionModel); the topic, which cameras of old missions do not have at all, is not compared."
 },
 "C284": {
  "note": "Refuted by witnesses for other formats, paths without a slash, origins, unknown payloads and quoted versions."
 },
 "C285": {
  "note": "Times are exact and not negative; the sample values, local times and plotly figures are not modelled."
 },
 "C286": {
  "note": "False as stated: fast samples, a third frame, a file with only the origin, the second of a label and the sign of a rate."
 },
 "C287": {
  "note": "Over the reals, with numpy's det and inv exact; the branch cos(angle) == 0 is exact too, where binary64 hardly ever takes it."
 },
 "C288": {
  "note": "False as stated: one mirrored axis, a pitch over a right angle, a zero scale, a tiny last row and nearly orthogonal shear vectors."
 },
 "C289": {
  "note": "The lines are lists of fields (no quotes or blank lines) and the header names distinct; pandas is taken to hand out string cells, with its NA words becoming nan."
 },
 "C29": {
  "note": "For right images used twice and dives without right images see C129."
 },
 "C290": {
  "note": "False as stated: unpadded times, rows ending with a comma, repeated numbers, a two-letter number column and an empty date cell."
 },
 "C291": {
  "note": "Means are exact; reading the brightness CSV back is taken to give what was written."
 },
 "C292": {
  "note": "False as stated: opacity counts as a channel, .JPG is not looked at, a picture without channels stops the script, a comma brings quotes."
 },
 "C293": {
  "note": "cv2.imread and cvtColor are one partial function; each image is read and written in one step, which loses nothing as no image reads what another writes."
 },
 "C294": {
  "note": "False as stated: MONO writes nothing, mixed case is refused, PNG input in the output folder is replaced, .png and .png.png share an output."
 },
 "C295": {
  "note": "Pixels and variances are exact rationals; cv2.Laplacian is its documented kernel with the border reflected."
 },
 "C296": {
  "note": "False as stated: a corner outside the image, low contrast, a slope (by the reflected border)."
 },
 "C297": {
  "note": "How pandas reads a single cell is an argument; empty cells and columns of True and False are left out."
 },
 "C298": {
  "note": "False as stated: numeric rows become floats, the columns setting is unused, epoch_timestamp is replaced and dropped, the offset is only in the sample's time."
 },
 "C30": {
  "note": "For the USBL dump in the south and west see C130."
 },
 "C300": {
  "note": "Refuted: an altitude given before the velocity of its cycle is paired with the velocity of the cycle before, and an attitude given before the heading is not turned by the heading offset. C299 gives the orders that work."
 },
 "C302": {
  "note": "Refuted: only the first image is looked at, raw images are always taken as 1024 by 1280, tiff, TIF and jpeg images end the program, and bags without images of the camera give an empty list on which the corrector fails. C301 says what holds."
 },
 "C304": {
  "note": "Refuted: pictures that are there are not drawn again even if the laser is detected again, 16 bit values lose their upper byte, and two images of one name in one folder share a picture. C303 gives the conditions."
 },
 "C306": {
  "note": "Refuted: the shipped max_points_per_bin is not read because the calibrator looks for max_bin_elements; without a detection section the program fails after writing the first file; an empty section raises. C305 says what holds."
 },
 "C307": {
  "note": "Images are written in the order of the list; writing succeeds (C61 has the attempts)."
 },
 "C308": {
  "note": "Refuted: two images with one stem in two folders leave one file, with the pixels of the second; for bags auv_nav's rows are called after the time alone while the corrected images are called after camera and time, so filelist.csv is empty."
 },
 "C309": {
  "note": "The search for a board, the sharpness test and the parameters of a view are arguments; that they raise is left out."
 },
 "C31": {
  "note": "For broken packets, other orders and headings through north see C131."
 },
 "C310": {
  "note": "All four refuted: db is not emptied, so the second run raises; only the left board is kept, and the right corners may be of another one; an unreadable image has no shape, an AttributeError; images are paired by place."
 },
 "C311": {
  "note": "Over the reals."
 },
 "C312": {
  "note": "Refuted: angles of 60, 60 and 135 degrees raise ValueError; for angles of 90, 60 and 90 degrees the first edge leaves the x axis (the third stays on z)."
 },
 "C313": {
  "note": "Exact rationals instead of doubles."
 },
 "C314": {
  "note": "Refuted: near = 1e-16 raises 'invalid frustrum: near <= 0', because near is compared with four times the machine epsilon. What holds is C313_taken."
 },
 "C315": {
  "note": "Real numbers; an exception and a vector of NaN are both a failure; the start is a unit quaternion."
 },
 "C316": {
  "note": "Refuted: the axis (0, 0, -1) and the middle of the window give NaN, where (0, 0, 1) does not (C316_down_refuted); after setaxes() the next press computes with no axis, because the tuple of arguments is never None (C316_clear_refuted). What holds is C315_runs."
 },
 "C317": {
  "note": "Real numbers; metres_to_latlon is an argument."
 },
 "C318": {
  "note": "Refuted: the uncertainties stay (C318_std_refuted), a second call turns again (C318_again_refuted), and without a reference the position is already turned when it raises (C318_half_refuted)."
 },
 "C32": {
  "note": "For clock steps back and times that are not positive see C132; for the contents of the records C82."
 },
 "C33": {
  "note": "For the last ensemble and attitudes in PD6 order see C133."
 },
 "C34": {
  "note": "For attitudes, the right camera, the first pose and the origin of vehicle files see C134."
 },
 "C35": {
  "note": "Fully proved for the modelled reader."
 },
 "C36": {
  "note": "JSON values as trees. For tides, the body velocity's own stamp and other readers see C136."
 },
 "C37": {
  "note": "pandas is modelled as splitting at commas. For the other cases see C137."
 },
 "C38": {
  "note": "Fully proved, for matrices over any type."
 },
 "C39": {
  "note": "For body velocity stamps, second cameras, BioCam lasers and unordered files see C139."
 },
 "C40": {
  "note": "For BioCam laser records see C140."
 },
 "C41": {
  "note": "YAML values as trees. For the other parts see C141."
 },
 "C42": {
  "note": "Variances over the rationals. For saturated pixels and ignored zeroes see C142."
 },
 "C43": {
  "note": "Over the reals, with the starting point of the fit for two different altitudes. The least-squares fit itself is not modelled. For samples at one altitude see C143."
 },
 "C44": {
  "note": "Rationals; deviations as numbers whose square is the variance. For the mean after clipping see C144."
 },
 "C45": {
  "note": "Over the reals. For negative values and locality see C145."
 },
 "C46": {
  "note": "For longer files see C146."
 },
 "C47": {
  "note": "Exact model of rounding to single precision. For deeper images and the other loaders see C147."
 },
 "C48": {
  "note": "For extreme factors and ambiguous names see C148."
 },
 "C49": {
  "note": "For the altitudes with depth maps and other ranges see C149."
 },
 "C50": {
  "note": "For values missing at different places see C150."
 },
 "C51": {
  "note": "For project_point after resizing and stereo files see C151."
 },
 "C52": {
  "note": "For other configurations and the parameters not compared see C152."
 },
 "C53": {
  "note": "The singular value decomposition is specified on three points not on a line. For runs that reach the maximum and the inlier test of the returned model see C153."
 },
 "C54": {
  "note": "Over the reals. For other normals, planes built from pitch and yaw and points behind a ray see C154."
 },
 "C55": {
  "note": "For falling midpoints and a single poll see C155."
 },
 "C56": {
  "note": "For the first camera's EKF poses see C156."
 },
 "C57": {
  "note": "See C157 for the claim about several dives."
 },
 "C58": {
  "note": "For the window ending at the last row see C158."
 },
 "C59": {
  "note": "Over the reals. For exactness near gimbal lock see C159."
 },
 "C60": {
  "note": "For bare stems with dots and rescaling see C160."
 },
 "C61": {
  "note": "For the return value and writes that succeed on a later attempt see C161."
 },
 "C62": {
  "note": "For the dropped record and times before the first depth see C162."
 },
 "C63": {
  "note": "The code rotates them like a velocity; see C163."
 },
 "C64": {
  "note": "For the other four see C164."
 },
 "C65": {
  "note": "Away from gimbal lock (cos pitch <> 0); reals; uses Coquelicot's is_derive."
 },
 "C66": {
  "note": "From the invertibility the smoother needs. For the first state and runs of a single state see C166."
 },
 "C67": {
  "note": "The displacement by the mean USBL difference is added and subtracted again; see C167."
 },
 "C68": {
  "note": "For the segment used, headings and other gaps see C168."
 },
 "C69": {
  "note": "For other orders see C169."
 },
 "C70": {
  "note": "For gaps, other names and the direction see C170."
 },
 "C71": {
  "note": "For other inputs see C171."
 },
 "C72": {
  "note": "For SYSTEM names and the names of laser records see C172."
 },
 "C73": {
  "note": "For the fit see C173."
 },
 "C74": {
  "note": "For a stack of images see C174."
 },
 "C75": {
  "note": "For images with the same stem see C175."
 },
 "C76": {
  "note": "For manual balance of grey images and its subtractors see C176."
 },
 "C77": {
  "note": "Proved."
 },
 "C78": {
  "note": "For other fixes see C178."
 },
 "C79": {
  "note": "Over the reals. For sensors with a heading offset see C179."
 },
 "C80": {
  "note": "For earlier records see C180."
 },
 "C81": {
  "note": "For other orders, broken messages and midnight see C181. The heading is not turned by the mounting angle (C81_turn)."
 },
 "C82": {
  "note": "Velocity, orientation, depth, altitude and position of the three parsers. The position in metres is left out (see C12)."
 },
 "C83": {
  "note": "For any order: the measurements followed by a later one or by none are reported. Refuted: a step back replaces the measurement before it and the output is out of order; ALR fixes without depth and koyo21 rows without position are reported (NaN); koyo21 times use the computer's zone."
 },
 "C84": {
  "note": "Rows are taken with decoded values; reading the table is left out."
 },
 "C85": {
  "note": "Refuted: -32 is not beyond the test for 32, so an unturned lock loss is reported as 32 m/s; a turned one is left out depending on the angle (C85_lock_partial). Times go back after midnight; times use the computer's zone."
 },
 "C86": {
  "note": "Readers of dates, numbers, beacon numbers and sentences are arguments. The heading is not turned by the mounting angle."
 },
 "C87": {
  "note": "Refuted: labels of two or more characters never match a depth line (C87_long_label, for all logs); a quoted label never matches a position line (C87_text_label, for all logs); one damaged line aborts the parser."
 },
 "C88": {
  "note": "Over the reals. Ground truth is a rigid body (place); the interpolation of the attitude itself is C02."
 },
 "C89": {
  "note": "Refuted, each with the exact error for all inputs: EKF camera altitude (off by the height of the origin above the DVL), EKF camera latitude/longitude (those of the origin), PF camera depth and altitude (not moved to the origin), dead-reckoning velocity (that of the point at twice the DVL's offset)."
 },
 "C90": {
  "note": "YAML values are passed through unchanged; reading the YAML text is left out."
 },
 "C91": {
  "note": "Refuted: the frame named for a sensor is checked to exist and then ignored (C91_named_frame_ignored, for all files in the present format); the old-format heading is lost when the origin is not in the old format; a frame without known keys counts as mounted at the origin; the fourth camera is ignored."
 },
 "C93": {
  "note": "False: with several matching folders only the first one listed is used; with none there is an IndexError; folders between stars are ignored; names can collide or lose their first letter. The name is proved for topics that begin with a slash."
 },
 "C94": {
  "note": "Over any real closed field, with body_to_inertial as a parameter (its geometry is C05 and C88); samples without NaN. Discharges the hypothesis on measurement builders of C18 and C66."
 },
 "C95": {
  "note": "Refuted: only the first standard deviation is looked at, so a zero one of another axis is used; the noise of angles is proportional to the signed angle; the USBL range is measured from the origin of the local frame."
 },
 "C96": {
  "note": "Over any real closed field, pi any positive number."
 },
 "C97": {
  "note": "Real arithmetic; NaN is not modelled; OpenCV's debayering, channel exchange and undistortion are an argument (C97_levels, C97_distance) or left out (C97_order)."
 },
 "C98": {
  "note": "Refuted: one bright pixel switches the formula for the whole image and a level 9 becomes 0."
 },
 "C99": {
  "note": "The parsers are arguments; the correction of BioCam times is assumed to return the records in order (C28)."
 }
}