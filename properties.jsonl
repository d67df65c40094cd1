{"id": "C01", "title": "Linear interpolation is exact at the samples and never leaves the bracket", "statement": "Interpolating a scalar between two timestamped samples returns each sample's own value at that sample's timestamp, returns a value between the two sample values (and monotone in the query time) whenever the query time lies between the two timestamps, reproduces every affine signal exactly, and never divides by zero: equal timestamps return the lower sample.", "quantifier": "all query times, all pairs of timestamps (equal or not, in either order) and all sample values, as exact numbers", "why_tests_cant": "the claim ranges over a continuum of times and values; tests can sample a handful of triples", "anchors": ["src/auv_nav/tools/interpolate.py:interpolate"]}
{"id": "C02", "title": "Heading interpolation follows the shorter arc and stays in [0, 360]", "statement": "When two headings in [0, 360] are interpolated at a time between their timestamps, the resulting heading is in [0, 360] and, modulo 360, moves from the first to the second heading along an arc of at most 180 degrees, in proportion to the elapsed time. This holds for the DVL/orientation synchronisation and for every sensor interpolated on the dead-reckoning track.", "quantifier": "all heading pairs in [0, 360], all time brackets and query times inside them, all three interpolation entry points", "why_tests_cant": "the wrap-around cases form a continuum with boundary cases at 0, 180 and 360; a finite suite misses combinations", "anchors": ["src/auv_nav/tools/interpolate.py:interpolate_dvl", "src/auv_nav/tools/interpolate.py:interpolate_sensor_list", "src/auv_nav/tools/interpolate.py:interpolate_camera"]}
{"id": "C03", "title": "Sensor samples are interpolated inside their own bracket of the track and kept", "statement": "Interpolating a time-sorted sensor list that reaches at least the last but one sample of a time-sorted navigation track succeeds; every sensor sample from the first to the last but one track sample is kept, with its own time and name and in the original order, and its pose is the linear interpolation (short arc for the heading, mounting offsets applied) between the two adjacent track samples whose timestamps bracket it, with its uncertainties interpolated between them too. Samples before the track are removed.", "quantifier": "all sorted sensor lists, all sorted tracks of any length, all relative alignments of the two", "why_tests_cant": "the outcome depends on a two-index scan whose corner cases depend on how the ends of the two lists interleave; there are unboundedly many alignments", "anchors": ["src/auv_nav/tools/interpolate.py:interpolate_sensor_list"]}
{"id": "C04", "title": "Camera poses interpolated from another camera's track use the bracketing samples", "statement": "Interpolating a camera pose at a query time later than the second and not later than the last sample of a time-sorted camera track returns the linear interpolation of the two samples that bracket the query.", "quantifier": "all sorted camera tracks with at least two entries and all query times within the span", "why_tests_cant": "off-by-one errors at the start of the list are only visible for some positions of the query", "anchors": ["src/auv_nav/tools/interpolate.py:interpolate_camera"]}
{"id": "C05", "title": "Body-to-inertial conversion is a rigid rotation", "statement": "Converting a body-frame vector to the inertial frame preserves its length and the dot product of any two vectors, keeps orientation (cross products map to cross products), leaves vectors unchanged at zero roll, pitch and yaw, is linear, and is the composition yaw after pitch after roll.", "quantifier": "all roll, pitch, yaw angles in degrees and all vectors", "why_tests_cant": "a continuum of angles and vectors; a sign error can cancel on the sampled angles", "anchors": ["src/auv_nav/tools/body_to_inertial.py:body_to_inertial"]}
{"id": "C06", "title": "Inertial-to-body conversion undoes body-to-inertial conversion in the plane", "statement": "Converting a vector from body to inertial frame and back with the same roll, pitch and yaw always returns its first two components, and returns the whole vector exactly when the heading is along the north-south line, the pitch is level, sine and cosine of the roll agree, or the vector has no east component.", "quantifier": "all roll, pitch, yaw angles and all vectors", "why_tests_cant": "an error in one matrix entry is invisible whenever the sampled attitude has a zero angle", "anchors": ["src/auv_nav/tools/inertial_to_body.py:inertial_to_body", "src/auv_nav/tools/body_to_inertial.py:body_to_inertial"]}
{"id": "C07", "title": "DVL lever-arm correction is the rigid-body velocity transfer along its arm", "statement": "The lever-arm correction changes a velocity by the cross product of angular velocity and arm: given the arm from the DVL to the vehicle's centre it turns the velocity measured at the DVL into the velocity of the centre for every rigid motion; it changes nothing when the vehicle is not rotating or the arm is zero, changes the velocity only orthogonally to the rotation axis and the arm, and correcting by an arm and then by its opposite restores the measurement. Angular rates derived from a track of three or more samples rotating at a constant rate equal that rate at every sample, including across the 0/360 heading seam.", "quantifier": "all velocities, rates and lever arms; all tracks with increasing timestamps of any length", "why_tests_cant": "continuum of inputs and unbounded track lengths; first/last sample handling differs from the interior", "anchors": ["src/auv_nav/tools/dvl_level_arm.py:correct_lever_arm", "src/auv_nav/tools/dvl_level_arm.py:compute_angular_speeds"]}
{"id": "C08", "title": "Dead reckoning integrates velocity by the trapezoid rule and is additive over time", "statement": "The dead-reckoned displacement over a run equals the sum of the trapezoid areas of consecutive velocity samples: constant velocity v over time T moves the vehicle exactly v*T however the interval is sampled, splitting the run at any sample gives the same end position, and displacement is linear in the velocities.", "quantifier": "all sequences of timestamped velocity samples, any length", "why_tests_cant": "needs induction over the run length; drift from an indexing error only shows on particular sampling patterns", "anchors": ["src/auv_nav/localisation/dead_reckoning.py:dead_reckoning", "src/auv_nav/process.py:process"]}
{"id": "C09", "title": "Civil time to epoch conversion is exact and timezone shifts are exact hours", "statement": "Converting a calendar date, time of day and timezone offset to epoch seconds gives the number of UTC seconds since 1970-01-01 (every second from 1970 to 9999 being counted, leap days included); converting back to text or a date gives the same instant, and the same day on a computer set to UTC; one second later is one second more, microseconds are added as such, and a timezone offset of h hours moves the result by exactly -3600*h.", "quantifier": "all valid Gregorian dates from 1970 on, all times of day, all timezone offsets", "why_tests_cant": "calendar arithmetic involves leap years and month lengths across an unbounded range of years", "anchors": ["src/auv_nav/tools/time_conversions.py:date_time_to_epoch", "src/auv_nav/tools/time_conversions.py:string_to_epoch", "src/auv_nav/tools/time_conversions.py:epoch_to_datetime"]}
{"id": "C10", "title": "Time zones loaded from a mission file are standard offsets and are read back unchanged", "statement": "A mission's timezone utc, cet or jst (in either case) is loaded as its standard offset from UTC and a number as that many hours, and the sensor parsers read the loaded value back unchanged.", "quantifier": "all timezone entries a mission file can contain", "why_tests_cant": "two separate implementations must agree on every string, not on sampled ones", "anchors": ["src/auv_nav/tools/time_conversions.py:read_timezone", "src/oplab/mission.py:TimeZoneEntry"]}
{"id": "C11", "title": "Raw, processed and config folders correspond one to one", "statement": "Mapping a path inside a raw data tree to its processed or config counterpart replaces exactly one path component, preserves everything after it, is idempotent, and mapping back to raw returns the original path, for every path containing exactly one of these folder names; a path containing none of them is rejected rather than silently returned.", "quantifier": "all paths (any depth, any component names)", "why_tests_cant": "paths are unbounded lists of arbitrary names, including names that merely contain 'raw'", "anchors": ["src/oplab/folder_structure.py:get_folder", "src/oplab/folder_structure.py:change_subfolder", "src/oplab/folder_structure.py:get_raw_folder", "src/oplab/folder_structure.py:get_processed_folder"]}
{"id": "C12", "title": "File names decode to the date they encode", "statement": "For every date format in which year, month, day, hour, minute and second (and, if present, milli- and microseconds) appear with all their digits, and every file name built from a date by that format, the decoder returns exactly the encoded instant; characters outside the format letters never change the result, for any format.", "quantifier": "all formats over the supported letters, all dates, all separators", "why_tests_cant": "format strings and dates are unbounded; tests use one or two fixed layouts", "anchors": ["src/oplab/filename_to_date.py:FilenameToDate"]}
{"id": "C13", "title": "A corrupted NMEA line is never accepted", "statement": "A PHINS log line without blanks is accepted exactly if it starts with $PIXSE or $HEHDT and its two-digit hexadecimal checksum equals the exclusive-or of the characters between '$' and '*'; replacing any one visible character before the '*' by a different visible one, in any line, or by a blank, in a line without blanks, turns an accepted line into a rejected one.", "quantifier": "all lines, all positions, all replacement characters", "why_tests_cant": "there are 255 replacements at every position of every line", "anchors": ["src/auv_nav/parsers/parse_phins.py:line_is_valid", "src/auv_nav/parsers/parse_phins.py:parse"]}
{"id": "C14", "title": "Interlacing sorts all records by time without losing any", "statement": "Interlacing the parsed records yields a permutation of the records, each record's content untouched; when all stamps have the same number of digits before the point, as all epochs from September 2001 to November 2286 have, apart from the origin at 0.0, and there is at least one record, interlacing succeeds and yields nondecreasing time order with records of equal time in their original order.", "quantifier": "all record lists and all timestamp values", "why_tests_cant": "sortedness depends on how timestamps compare, including values with different digit counts", "anchors": ["src/auv_nav/parsers/parse_interlacer.py:parse_interlacer"]}
{"id": "C15", "title": "USBL filtering returns an ordered sub-sequence of plausible fixes", "statement": "Filtering USBL fixes only removes fixes: the output is a sub-sequence of the input in the same order, each kept fix is unchanged, a fix is kept only if its depth agrees with the vehicle depth within the tolerance and its distance to at least one temporal neighbour is consistent with the vehicle's maximum speed, and filtering terminates without index errors for every list length.", "quantifier": "all USBL lists, depth records, thresholds", "why_tests_cant": "index-based scans over lists of arbitrary length; neighbour conditions are history dependent", "anchors": ["src/auv_nav/localisation/usbl_filter.py:usbl_filter", "src/auv_nav/localisation/usbl_filter.py:depth_filter", "src/auv_nav/localisation/usbl_filter.py:distance_filter"]}
{"id": "C16", "title": "The filter covariance stays symmetric positive semidefinite", "statement": "Starting from a symmetric positive semidefinite covariance, after any sequence of EKF predictions (any time step) and measurement updates (any accepted or rejected measurement of any sensor, in any order), the state covariance is symmetric positive semidefinite; smoothing does not lose symmetry.", "quantifier": "all initial covariances, all process and measurement noises with nonnegative variances, all sequences of operations of any length, all linearisation points", "why_tests_cant": "histories are unbounded and the property is about a 12x12 real matrix", "anchors": ["src/auv_nav/localisation/ekf.py:EkfImpl.predict", "src/auv_nav/localisation/ekf.py:EkfImpl.correct", "src/auv_nav/localisation/ekf.py:EkfImpl.smooth"]}
{"id": "C17", "title": "A rejected measurement has no effect and every measurement is accounted for", "statement": "A measurement whose Mahalanobis distance exceeds the gate leaves state and covariance exactly as before; an accepted one updates them; for each sensor the report's total equals accepted plus rejected and equals the number of corrections attempted.", "quantifier": "all states, covariances, measurements, thresholds and sequences of corrections", "why_tests_cant": "requires tracking counters over arbitrary histories", "anchors": ["src/auv_nav/localisation/ekf.py:EkfImpl.correct", "src/auv_nav/localisation/ekf.py:EkfImpl.check_mahalanobis_distance", "src/auv_nav/localisation/ekf.py:MeasurementReport"]}
{"id": "C18", "title": "The EKF consumes each measurement once, in time order, and covers every timestamp", "statement": "Running the EKF over orientation, velocity, USBL and depth streams in time order and a list of query timestamps finishes; each measurement later than the start time is used exactly once, in nondecreasing time order and at its own time, up to the end time, with at most one time step at or after the end; the filter time never goes back, and a state is recorded for every query timestamp between start and end.", "quantifier": "all sorted sensor streams of any lengths, all query timestamp lists, ties included", "why_tests_cant": "a five-way merge with ties; the number of interleavings is unbounded", "anchors": ["src/auv_nav/localisation/ekf.py:ExtendedKalmanFilter.run"]}
{"id": "C19", "title": "EKF poses are attached to the right camera image", "statement": "After the EKF, each camera image keeps its own identity and is paired only with an EKF state whose timestamp equals the image's, images and states in order and each used at most once; with one image per timestamp, every image that has a state at exactly its time gets it, whatever the other images do; and the altitudes of states within the span of the dead reckoning are interpolated between the two samples around them.", "quantifier": "all camera lists and EKF state lists", "why_tests_cant": "merge joins misalign only for particular patterns of missing or duplicate timestamps", "anchors": ["src/auv_nav/localisation/ekf.py:update_camera_list", "src/auv_nav/localisation/ekf.py:save_ekf_to_list"]}
{"id": "C20", "title": "Angle wrapping returns the same angle in the canonical range", "statement": "Wrapping an angle returns a value in the closed canonical range that differs from the input by an integer number of turns, leaves angles already in range unchanged, is idempotent and terminates for every finite input.", "quantifier": "all angles", "why_tests_cant": "continuum of inputs, loop count unbounded", "anchors": ["src/auv_nav/localisation/ekf.py:EkfImpl.clamp_rotation", "src/auv_nav/localisation/ekf.py:EkfImpl.wrap_state_angles"]}
{"id": "C21", "title": "Particle weights are a probability distribution", "statement": "After any history of USBL measurements, resamplings and propagations, a further measurement leaves every particle present exactly once, with nonnegative weights proportional to old weight times likelihood, best first, and, unless the products of weight and likelihood add up to less than 1e-20, the weights sum to one; then the effective sample size lies between 1 and the number of particles. The likelihood is positive and decreases with the distance from the fix.", "quantifier": "all particle sets, weights and measurement likelihoods, any number of measurements", "why_tests_cant": "normalisation must survive arbitrary histories of multiplications", "anchors": ["src/auv_nav/localisation/pf.py:ParticleFilter.measure", "src/auv_nav/localisation/pf.py:ParticleFilter.get_neff"]}
{"id": "C22", "title": "Systematic resampling is proportional", "statement": "Resampling any nonempty set of particles succeeds and returns the same number of particles, every one a copy of an existing particle; if the weights are normalised and the random offset is in (0, 1), a particle with weight w appears either floor(N*w) or ceil(N*w) times.", "quantifier": "all weight vectors summing to one, all random offsets in [0,1), all N", "why_tests_cant": "the count bound is a statement about every real weight vector and every random draw", "anchors": ["src/auv_nav/localisation/pf.py:ParticleFilter.resample"]}
{"id": "C23", "title": "Particle trajectories record where the particle was at that time", "statement": "Whatever propagations, reorderings and resamplings follow, the i-th entry of a particle's trajectory has the easting and northing the particle had right after its i-th propagation, with that propagation's time, and the last entry is its full state; each propagation moves the particle by its body velocity times the time step, rotated by yaw after pitch after roll as in dead reckoning.", "quantifier": "all sequences of propagations and measurements", "why_tests_cant": "aliasing bugs depend on the history after the entry was recorded", "anchors": ["src/auv_nav/localisation/pf.py:DeadReckoningMovementModel.propagate", "src/auv_nav/localisation/pf.py:run_particle_filter"]}
{"id": "C24", "title": "The particle filter processes dead reckoning and USBL in time order, each once", "statement": "The particle filter run on two or more dead-reckoning samples and USBL fixes that start no earlier finishes, propagates every dead-reckoning sample exactly once in order, and applies each USBL fix up to the last sample exactly once, after all samples earlier than it and before all later ones, each time step leading from the previous event to the next; whenever a run finishes, every sample is used once and no fix before the first sample is used.", "quantifier": "all sorted DR and USBL lists", "why_tests_cant": "merge loops over two lists of unbounded length with ties", "anchors": ["src/auv_nav/localisation/pf.py:run_particle_filter"]}
{"id": "C25", "title": "Tidal correction applies the interpolated tide to every depth inside the tide record", "statement": "For time-ordered lists, each depth (and USBL target depth) later than the first and not later than the last but one sample of a tide record of two or more samples is reduced by the tide height linearly interpolated at its timestamp; all others are left unchanged; no other field changes, whatever the lists.", "quantifier": "all sorted tide records, all depth lists", "why_tests_cant": "the scan's behaviour at the first and last tide samples depends on list lengths and alignment", "anchors": ["src/auv_nav/parse.py:parse_single"]}
{"id": "C26", "title": "Existing output is never overwritten without the force flag, and missing output is always produced", "statement": "Without the force option, parsing any number of dives (without merging) leaves every existing file unchanged, processing does so unless relative pose uncertainties are requested, correct_images leaves the files its mode looks for (parameters when parsing, all outputs when processing) unchanged, oplab_to_acfr changes nothing once a pose file exists, and acfr_to_oplab leaves an existing laser file and all files but its own outputs unchanged. A dive without a processed folder is parsed. With the force option the outputs of parse and correct_images are regenerated.", "quantifier": "all file-system states and flag combinations, for parse, convert and correct_images", "why_tests_cant": "depends on which of many files exist; the state space of file systems is unbounded", "anchors": ["src/auv_nav/parse.py:check_output_files_exist", "src/auv_nav/parse.py:parse_single", "src/auv_nav/convert.py:acfr_to_oplab", "src/auv_nav/convert.py:oplab_to_acfr"]}
{"id": "C27", "title": "Parsing a dive does not depend on empty dives parsed before it", "statement": "When several dives are parsed in one invocation, the first dive, and every dive preceded only by dives without images, gives the records it gives alone; a dive with no more images than the one before gives only timestamps of that earlier dive.", "quantifier": "all sequences of dives and all image lists", "why_tests_cant": "history dependence through module state appears only for sequences of at least two dives", "anchors": ["src/auv_nav/parsers/parse_acfr_images.py:parse_acfr_images", "src/auv_nav/parsers/parse_biocam_images.py:parse_biocam_images", "src/auv_nav/parse.py:parse"]}
{"id": "C28", "title": "Corrected camera clocks never run ahead of the computer clock", "statement": "For two or more stereo pairs the BioCam timestamp correction succeeds and maps each camera timestamp to a computer-time estimate that is never later than the recorded computer time of that frame, is attained by at least one frame, is affine in the camera time with the fitted drift (so preserves frame order when the drift is above -100%) and assigns each estimate to the frame it was computed from.", "quantifier": "all lists of camera/computer timestamp pairs, any fitted slope", "why_tests_cant": "a statement about the minimum over lists of arbitrary length", "anchors": ["src/auv_nav/parsers/parse_biocam_images.py:correct_timestamps", "src/auv_nav/parsers/parse_biocam_images.py:line_fit"]}
{"id": "C29", "title": "Stereo pairs are nearest in time and within tolerance", "statement": "For a dive parsed alone that has right images (or no left ones): the stereo pairs are in the order of the left images; each consists of a left image and a right image whose timestamp is nearest to it among all right images, within the tolerance; and every left image with a right image within the tolerance is reported.", "quantifier": "all left and right timestamp lists and tolerances", "why_tests_cant": "nearest-neighbour claims range over arbitrary lists", "anchors": ["src/auv_nav/parsers/parse_acfr_images.py:parse_acfr_images", "src/auv_nav/parsers/parse_biocam_images.py:parse_biocam_images"]}
{"id": "C30", "title": "Degrees-and-minutes positions are decoded with the right sign on both hemispheres", "statement": "A position given as degrees, decimal minutes and hemisphere letter decodes to +/-(degrees + minutes/60), negative exactly for S and W, in the GAPS and HyBis parsers, and in the USBL dump parser in the north and east; numbers are read by their decimal place values.", "quantifier": "all degrees, minutes in [0,60), all hemispheres, all parsers", "why_tests_cant": "tests use data from one or two geographic regions", "anchors": ["src/auv_nav/parsers/parse_usbl_dump.py:parse_usbl_dump", "src/auv_nav/parsers/parse_gaps.py:parse_gaps", "src/auv_nav/parsers/hybis.py:HyBisPos.convert_latlon"]}
{"id": "C31", "title": "GAPS fixes take the ship's pose from around the fix", "statement": "For logs made of regular cycles (heading, ship position, target packet, ship position and heading, in any number of files which may each end in the middle of a cycle), the GAPS parser reports one fix per cycle, in order, whose ship position is interpolated between the ship samples immediately before and after it, and so is the heading when the ship does not turn through north.", "quantifier": "all sequences of log lines", "why_tests_cant": "a state machine driven by arbitrary line sequences", "anchors": ["src/auv_nav/parsers/parse_gaps.py:parse_gaps"]}
{"id": "C32", "title": "Parsed vehicle streams are strictly increasing in time", "statement": "For a log in time order with times after 1970, the ALR and Autosub parsers return records with strictly increasing timestamps: for each timestamp the latest record; whatever the order, every returned record is one of the log and the last one is returned.", "quantifier": "all logs, including logs whose clock steps backwards", "why_tests_cant": "depends on the history of timestamps in the log", "anchors": ["src/auv_nav/parsers/parse_alr.py:parse_alr", "src/auv_nav/parsers/parse_autosub.py:parse_autosub"]}
{"id": "C33", "title": "Every DVL ensemble in an RDI log but the last is reported once", "statement": "For every RDI log in PD6 order, the parser reports for the velocity and altitude categories one record for each ensemble but the last that carries valid data, with that ensemble's timestamp and values, in order, and none for ensembles without valid data; when the timestamp line comes first it does so for attitudes too.", "quantifier": "all sequences of log lines", "why_tests_cant": "stale-state and end-of-file behaviour depends on arbitrary line sequences", "anchors": ["src/auv_nav/parsers/parse_rdi.py:parse_rdi", "src/auv_nav/sensors.py:BodyVelocity.export"]}
{"id": "C34", "title": "ACFR pose files keep times, places and image names", "statement": "Writing stereo camera lists to an ACFR pose file and parsing it back yields the origin and, in order, every pair with its time, the left camera's place, and the image names without their folders; writing a dead-reckoning list and parsing it back yields the time and place of every pose but the first; the written lines are numbered from 0 in order.", "quantifier": "all lists of poses", "why_tests_cant": "round trips must hold for every attitude and any list length", "anchors": ["src/auv_nav/parsers/acfr_vehicle_pose.py:AcfrVehiclePoseParser", "src/auv_nav/parsers/acfr_vehicle_pose.py:AcfrVehiclePoseWriter", "src/auv_nav/parsers/acfr_stereo_pose.py:AcfrStereoPoseParser"]}
{"id": "C35", "title": "ACFR RDI records combine fresh altitude and orientation", "statement": "In a combined ACFR raw file each RDI line combines a body velocity with an altitude and an orientation received since the previous RDI line; the other measurements are written exactly once each in input order.", "quantifier": "all sequences of measurements", "why_tests_cant": "a state machine over arbitrary measurement orders", "anchors": ["src/auv_nav/parsers/acfr_combined_raw.py:AcfrCombinedRawWriter.add"]}
{"id": "C36", "title": "Sensor records survive the JSON round trip", "statement": "Every orientation, depth, inertial velocity, altitude, USBL and image record exported to the navigation JSON and read back has the same timestamp and the same values for every field the pipeline later uses; a body velocity has the same values and the DVL's timestamp; with the linear uncertainty model the values are the same and the standard deviations are those of the configuration.", "quantifier": "all records of every sensor category", "why_tests_cant": "needs every field of every category for all values", "anchors": ["src/auv_nav/sensors.py:BodyVelocity", "src/auv_nav/sensors.py:Tide", "src/auv_nav/sensors.py:Depth", "src/auv_nav/sensors.py:Usbl", "src/auv_nav/sensors.py:Orientation", "src/auv_nav/sensors.py:Altitude"]}
{"id": "C37", "title": "Navigation CSV files contain one row per record and round-trip", "statement": "Writing two or more navigation or camera records whose cells hold no comma to CSV produces a header followed by exactly one row per record, in order, with as many columns as the header and the columns named after their values; reading camera and vehicle pose files back returns the same values; payload rows with dictionary data have the columns of their header; the covariance file has one row per record when every record has a covariance.", "quantifier": "all record lists of every length", "why_tests_cant": "list lengths and values unbounded; short lists behave differently", "anchors": ["src/auv_nav/tools/csv_tools.py:write_csv", "src/auv_nav/sensors.py:Camera.to_csv_row", "src/auv_nav/sensors.py:Camera.from_df"]}
{"id": "C38", "title": "The SLAM export lists each covariance block's upper triangle exactly once", "statement": "The exported information matrix row contains the 21 entries on and above the diagonal of the 6x6 matrix exactly once, in row order, after the axis permutation, and the full symmetric matrix can be recovered from them.", "quantifier": "all symmetric 6x6 matrices", "why_tests_cant": "index arithmetic over all entries and all matrices", "anchors": ["src/auv_nav/tools/csv_tools.py:spp_csv"]}
{"id": "C39", "title": "Only data inside the requested time window is processed", "statement": "Exactly the orientation, inertial velocity, depth, altitude, USBL, image and laser records whose time is inside the requested window are used, in order, and of the body velocities those whose DVL clock is less than a second off; the stamps given to them are inside the window (body velocities: less than one second outside; images and laser images: when they carry their own stamp). Without a requested window, every record is used if the file is in time order.", "quantifier": "all record lists and windows", "why_tests_cant": "filtering must hold for all records", "anchors": ["src/auv_nav/process.py:process"]}
{"id": "C40", "title": "Merging dives keeps every record of every dive", "statement": "Merging navigation JSON files of dives with the same origin, whose laser records have file names, succeeds and yields that origin once and every non-origin record of every dive, in order, unchanged except that image paths are prefixed with their dive folder; whenever a merge returns it has this form, and dives with different origins are never merged.", "quantifier": "all lists of dives and records", "why_tests_cant": "lists of arbitrary length", "anchors": ["src/auv_nav/parse.py:merge_json_files"]}
{"id": "C41", "title": "Mission files round-trip", "statement": "A mission configuration without payloads whose sensors are mounted at their default frames with default USBL options and whose cameras have a name and a frame and no topic or second time offset, written to YAML and loaded again, yields the same mission; of every sensor entry the time zone, clock offset, format, files, label and uncertainty model survive; and a sensor entry or camera comes back unchanged exactly under these conditions.", "quantifier": "all mission configurations", "why_tests_cant": "optional fields give exponentially many configurations", "anchors": ["src/oplab/mission.py:Mission.write", "src/oplab/mission.py:Mission.__init__", "src/oplab/mission.py:DefaultEntry"]}
{"id": "C42", "title": "Running image statistics equal batch statistics", "statement": "The streaming mean and standard deviation computed over two or more images without saturated pixels, the statistics over files (without ignoring zeroes, or without zeroes) and those over arrays equal the arithmetic mean and the population standard deviation of the whole sequence (the streaming deviation at least 1e-6), which do not depend on the order of the images.", "quantifier": "all sequences of images (pixel values) of any length", "why_tests_cant": "needs induction over the number of images", "anchors": ["src/correct_images/tools/numerical.py:RunningMeanStd", "src/correct_images/tools/numerical.py:mean_std_array"]}
{"id": "C43", "title": "Attenuation correction is neutral at the target altitude and inverts the fitted attenuation", "statement": "For curve parameters within the fitting bounds the correction never divides by zero, leaves a pixel observed at the target altitude unchanged, maps any pixel that follows the fitted attenuation curve to the value the same surface would have at the target altitude, and is monotone in intensity.", "quantifier": "all parameters within bounds, altitudes, intensities", "why_tests_cant": "a continuum of parameters and altitudes", "anchors": ["src/correct_images/corrections/attenuation.py:attenuation_correct", "src/correct_images/corrections/attenuation.py:calculate_correction_gains", "src/correct_images/tools/curve_fitting.py:curve_fitting"]}
{"id": "C44", "title": "Brightness and contrast normalisation hits its targets before clipping and stays in range", "statement": "Pixel statistics correction maps the mean intensity to the target mean and one standard deviation above it to the target mean plus the target standard deviation, gives the image before clipping exactly the target mean and standard deviation, is increasing in intensity before clipping and monotone after it, and always yields values in [0, 1]; the final 8-bit values are in [0, 255], monotone and within one level of the value.", "quantifier": "all images, statistics with positive deviation, targets", "why_tests_cant": "continuum of inputs", "anchors": ["src/correct_images/corrections/pixel_stat.py:pixel_stat", "src/correct_images/corrector.py:Corrector.process_image"]}
{"id": "C45", "title": "Gamma correction is monotone and stays in range in the final image", "statement": "The gamma correction of an image with pixels in [0,1] preserves the ordering of its pixels, yields values in [-0.055, 1], and final levels in [0, 255].", "quantifier": "all images with values in [0,1]", "why_tests_cant": "branching on whole-image conditions only shows for particular mixtures of dark and bright pixels", "anchors": ["src/correct_images/corrections/gamma.py:gamma_correct"]}
{"id": "C46", "title": "XVIII raw decoding is a lossless bijection between packed bytes and pixels", "statement": "Decoding a packed XVIII raw image of the exact size (width a multiple of four) yields exactly one 24-bit pixel for every three packed bytes, in row-major order, no byte is dropped or used twice, values lie in [0, 2^24), distinct files decode to distinct images and every image has a file.", "quantifier": "all byte strings of every valid size", "why_tests_cant": "2^96 values per 12-byte group", "anchors": ["src/correct_images/loaders/xviii.py:load_xviii_bayer_from_binary", "src/correct_images/loaders/xviii.py:loader"]}
{"id": "C47", "title": "Loaded images are normalised to [0, 1)", "statement": "Loading an image with the default loader for a bit depth of up to 24 yields pixel values in [0,1): the stored integer relative to the full scale it was read with, to within one step of the bit depth; XVIII pixels are in [0,1) exactly when they fit the bit depth; an integer that float32 cannot hold is read as the nearest one it can, the even one of two.", "quantifier": "all pixel values, bit depths", "why_tests_cant": "ranges over all stored values and bit depths", "anchors": ["src/correct_images/loaders/default.py:loader", "src/correct_images/loaders/loader.py:Loader"]}
{"id": "C48", "title": "Image rescaling keeps the crop inside the image", "statement": "Rescaling an image to a target pixel footprint at any altitude while keeping the pixels crops a centred box inside the image, of the scaled size to within a pixel, and keeps the image size; otherwise the new image covers the same ground with pixels of the target size up to one pixel, and is not empty if at least one target pixel is covered each way; an image gets the altitude of its own row if no other row's stem occurs in its name, and is skipped if no row's stem does.", "quantifier": "all image sizes, altitudes, target sizes; all image name lists", "why_tests_cant": "integer rounding and name matching over unbounded inputs", "anchors": ["src/correct_images/corrections/rescale.py:rescale", "src/correct_images/corrections/rescale.py:rescale_images"]}
{"id": "C49", "title": "Images are selected for training by their own altitude", "statement": "The images used to train the colour model are exactly those whose altitude lies strictly between the configured minimum and maximum, in order, each with its own altitude; with depth maps, exactly those that have one; the bins of the curve fit are those with at least ten images, each holding exactly the images whose altitude lies between its edges, no altitude being in two bins; and when the range is a whole number of bins every selected image falls in one.", "quantifier": "all altitude lists, bounds, and patterns of missing depth maps", "why_tests_cant": "alignment across filtered lists depends on arbitrary patterns", "anchors": ["src/correct_images/corrector.py:Corrector.get_imagelist", "src/correct_images/corrector.py:Corrector.get_altitude_and_depth_maps", "src/correct_images/corrector.py:Corrector.generate_attenuation_correction_parameters"]}
{"id": "C50", "title": "Attenuation curves are fitted to matching altitude-intensity pairs", "statement": "When altitudes and intensities are missing (non-finite) at the same places, the samples the attenuation curve is fitted to are exactly the pairs of finite positive altitude and intensity, in order; and in any case every altitude and intensity used is a finite positive one of the lists.", "quantifier": "all altitude and intensity lists with arbitrary patterns of non-finite entries", "why_tests_cant": "the misalignment depends on the pattern of non-finite values", "anchors": ["src/correct_images/tools/curve_fitting.py:curve_fitting"]}
{"id": "C51", "title": "Resizing a camera model scales its size and intrinsics", "statement": "After resizing a camera model by a ratio, width and height are the scaled ones rounded down and the intrinsics project every point to the original projection scaled by the ratio; project_point returns the perspective image of a point exactly if it lies strictly inside the image.", "quantifier": "all intrinsics, all points in front of the camera, all ratios", "why_tests_cant": "projective scale ambiguities hide errors for sampled points", "anchors": ["src/oplab/camera_models.py:MonoCamera"]}
{"id": "C52", "title": "Configuration equivalence is an equivalence relation and means agreement", "statement": "Comparing two correction configurations is symmetric and transitive, answers yes exactly if they agree on method, distance metric, smoothing, window size and camera names, and is reflexive for configurations with a colour section and without nan; dives accepted together agree pairwise; and dives are accepted together exactly when every two of them are equivalent.", "quantifier": "all pairs and triples of configurations", "why_tests_cant": "needs all combinations of parameters", "anchors": ["src/correct_images/parser.py:CorrectConfig.is_equivalent"]}
{"id": "C53", "title": "RANSAC returns the inliers of its last iteration, the best one when the goal is reached", "statement": "No iteration beyond the configured maximum is run; the inliers returned are exactly the consensus set of one of the iterations, in order, and the model is that of their first three points; and when the search ends before the maximum, this iteration has more inliers than the goal and than all iterations before it.", "quantifier": "all data sets, sampling sequences, thresholds", "why_tests_cant": "depends on the whole random sampling history", "anchors": ["src/auv_cal/ransac.py:run_ransac", "src/auv_cal/ransac.py:plane_fitting_ransac"]}
{"id": "C54", "title": "Plane parametrisations denote the plane they were built from", "statement": "A plane built from coefficients with a unit normal contains exactly the points satisfying the given equation and its point-plane distance is the Euclidean distance; a plane built through three points contains all three; a ray meets a plane in a point of the ray's line and of the plane, unless it is parallel to it; and in general the plane is the given one exactly when the normal has length one or the plane passes through the origin.", "quantifier": "all coefficient vectors with nonzero normal, all points and rays", "why_tests_cant": "continuum of planes; in-place aliasing only matters for non-unit normals", "anchors": ["src/auv_cal/plane_fitting.py:Plane", "src/auv_cal/laser_calibrator.py:build_plane", "src/auv_cal/laser_calibrator.py:plane_through_3_points"]}
{"id": "C55", "title": "ALR clock correction interpolates the polled offsets", "statement": "With two or more polls in the order of the ALR clock, the corrected time of each polled ALR time is exactly the midpoint of the two BioCam times around the poll, between polls it is affine, outside the polled span it continues the nearest segment, and it is monotone if the midpoints do not fall.", "quantifier": "all increasing poll lists with at least two polls, all query times", "why_tests_cant": "piecewise definition over arbitrary poll lists", "anchors": ["src/scripts/adjust_alr_to_biocam_time.py:TimeCorrector.correct_timestamp"]}
{"id": "C56", "title": "CSV output does not depend on thread timing", "statement": "Under every interleaving a CSV file written in the background whose records the main thread leaves alone equals the records as they were when the file was scheduled; and in any file every cell is a value its location had at some point of the remaining processing, these points never going back along the file.", "quantifier": "all schedules of writer threads and main thread", "why_tests_cant": "schedules cannot be enumerated by tests", "anchors": ["src/auv_nav/process.py:process", "src/auv_nav/tools/csv_tools.py:write_csv"]}
{"id": "C57", "title": "One dive contributes to the colour model", "statement": "When one dive is parsed for colour correction the trained model uses exactly the images selected from it; of several dives it uses those of the last; for manual balance every image of the first dive is listed 2^(n-1) times for n dives.", "quantifier": "all lists of dives, all correction methods", "why_tests_cant": "history dependence over a list of dives", "anchors": ["src/correct_images/corrector.py:Corrector.get_imagelist", "src/correct_images/corrector.py:Corrector.parse"]}
{"id": "C58", "title": "Laser line detection reports the brightest window of each column", "statement": "For each image column the detected laser row is the intensity centroid of the first of the windows with the largest weighted sum among those that end before the last row of the search range, there is a detection exactly when one of them is above the threshold, at most one detection per column is reported, and detections lie inside the search range.", "quantifier": "all images, window sizes and search ranges", "why_tests_cant": "maximum over all windows of all images", "anchors": ["src/auv_cal/laser_calibrator.py:findLaserInImage"]}
{"id": "C59", "title": "Euler angles extracted from a rotation matrix reproduce it", "statement": "For every rotation matrix built from yaw, pitch, roll, the extracted Euler angles rebuild the same matrix, at gimbal lock and outside its tolerance of 1.001e-5 exactly, and everywhere up to 1/200 in every entry.", "quantifier": "all angles away from and at gimbal lock", "why_tests_cant": "continuum of angles with a singular set", "anchors": ["src/auv_cal/euler_angles_from_rotation_matrix.py:euler_angles_from_rotation_matrix"]}
{"id": "C60", "title": "Files selected for processing are matched by exact stem", "statement": "Restricting an image list to the images named in a CSV keeps exactly the images whose file stem is the stem of a line of the CSV, in order, where the stem of a path is its file name without its last extension.", "quantifier": "all lists of file names", "why_tests_cant": "substring collisions depend on arbitrary names", "anchors": ["src/correct_images/tools/file_handlers.py:trim_csv_files", "src/correct_images/corrections/rescale.py:rescale_images"]}
{"id": "C61", "title": "A failed image write is retried at most five times and reported", "statement": "Writing an output image is attempted at most five times, stops at the first success, and an error is reported exactly when every attempt failed.", "quantifier": "all sequences of write outcomes", "why_tests_cant": "failures are environmental; all outcome sequences must be covered", "anchors": ["src/correct_images/tools/file_handlers.py:write_output_image"]}
{"id": "C62", "title": "Synchronisation keeps the orientations inside the velocity record, interpolated between their neighbours", "statement": "When velocity, altitude and depth are synchronised to the orientation timestamps for dead reckoning and the number of orientations before the velocity record is not one, the result has exactly one record per orientation sample whose time lies within the span of the velocity record, in order, and only the first of them is missing if it is one; its velocities are linearly interpolated between the two adjacent velocity samples that bracket it, and its altitude and depth, after their first and not after their last sample, between the two adjacent samples that bracket it.", "quantifier": "all time-increasing orientation, velocity, altitude and depth records of any length", "why_tests_cant": "Depends on the relative position of four independent clocks; the wrong index only shows at the ends of a record or when exactly one orientation precedes the first velocity.", "anchors": ["src/auv_nav/process.py:process"]}
{"id": "C63", "title": "Transformed velocity uncertainties keep their size", "statement": "Velocity standard deviations transformed to the north/east/down frame keep their norm; for a level vehicle the down one is kept, the north and east ones are not negative exactly for the headings where the forward deviation dominates, and they differ from the deviations of a rotated vector only by the product term; for a level vehicle pointing north they are unchanged.", "quantifier": "all attitudes and all nonnegative body-frame standard deviations", "why_tests_cant": "The sign depends on the attitude; a test at zero heading always passes.", "anchors": ["src/auv_nav/process.py:process", "src/auv_nav/tools/body_to_inertial.py:body_to_inertial"]}
{"id": "C64", "title": "The same zone and clock offset mean the same thing in all parsers that convert dates", "statement": "For every sensor parser except Sonardyne text, Voyis, RDI and ROS bags, a clock reading t recorded in a zone h hours ahead of UTC with a mission timeoffset of s seconds is converted to the same UTC epoch, t - 3600*h + s.", "quantifier": "all parsers that read a local clock, all zones, offsets and clock readings", "why_tests_cant": "Each parser has its own arithmetic; a test with UTC data and no offset exercises none of it, and an error shows up only as misregistered sensors.", "anchors": ["src/auv_nav/parsers/parse_phins.py:parse_phins", "src/auv_nav/parsers/parse_rdi.py:parse_rdi", "src/auv_nav/parsers/parse_rosbag.py:parse_rosbag", "src/auv_nav/parsers/parse_voyis.py:parse_voyis_images", "src/auv_nav/parsers/parse_acfr_images.py:parse_acfr_images"]}
{"id": "C65", "title": "The EKF linearises its own motion model correctly", "statement": "The Jacobian the filter uses to propagate uncertainty is the matrix of partial derivatives of the motion model with respect to the state at the current estimate, and the position part of the motion model moves the vehicle by the time step times its body velocity rotated into the local frame by the same rotation as the dead reckoning.", "quantifier": "all states and all time steps with the pitch away from plus or minus 90 degrees", "why_tests_cant": "144 entries that are functions of a continuous 12-dimensional state; a sign error in one cross term shows only for particular attitudes", "anchors": ["src/auv_nav/localisation/ekf.py:EkfImpl.compute_transfer_function_jacobian", "src/auv_nav/localisation/ekf.py:EkfImpl.compute_transfer_function"]}
{"id": "C66", "title": "Smoothed EKF covariances after the first remain covariance matrices", "statement": "After smoothing the two or more states recorded by any run with nondecreasing time stamps, there is one smoothed state for every filtered state with the same time stamp, the last one unchanged and those between given by the smoothing recursion, all smoothed covariances are symmetric, and all but the first are positive semidefinite.", "quantifier": "all runs of any length, all process and measurement noises, all motion models", "why_tests_cant": "unbounded histories of matrices; the first state is treated differently from the others only because of its array type", "anchors": ["src/auv_nav/localisation/ekf.py:EkfImpl.smooth", "src/auv_nav/localisation/ekf.py:EkfImpl.set_initial_state"]}
{"id": "C67", "title": "The particle filter starts at the dead-reckoning position", "statement": "The prior of the particle filter is the first dead-reckoning position, whatever the USBL fixes.", "quantifier": "all dead-reckoning and USBL lists", "why_tests_cant": "The displacement is an arbitrary real pair; only an algebraic argument shows the result is the same for every one of them.", "anchors": ["src/auv_nav/localisation/pf.py:get_prior"]}
{"id": "C69", "title": "Loading EKF states returns the requested image range", "statement": "Loading states between two image identifiers, the end coming after the start, returns exactly the rows from the first one with the start identifier through the first one with the end identifier, in file order.", "quantifier": "all state files and identifiers", "why_tests_cant": "unbounded files; positions of the two identifiers are arbitrary", "anchors": ["src/auv_nav/tools/csv_tools.py:load_states"]}
{"id": "C70", "title": "SLAM edges connect consecutive images with their relative motion", "statement": "For two or more images with consecutive numbers the exported EDGE3 lines form one chain of nodes 0, 1, 2, ... over the images; and each exported displacement is that from an image back to the one before it, with the information of the later one.", "quantifier": "all image lists, numbering gaps and poses", "why_tests_cant": "arbitrary gaps in image numbers and arbitrary positions", "anchors": ["src/auv_nav/tools/csv_tools.py:spp_csv", "src/auv_nav/process.py:process"]}
{"id": "C73", "title": "RANSAC statistics use the sample with the smallest signed error", "statement": "The robust mean of a pixel over a bin of images is that of the values within the threshold of the mean of one of the random samples drawn, one with the smallest sum of signed deviations.", "quantifier": "all value lists, thresholds and sampling sequences", "why_tests_cant": "depends on the whole random sampling history", "anchors": ["src/correct_images/tools/numerical.py:ransac_mean_std_1d", "src/correct_images/tools/numerical.py:ransac_mean_std"]}
{"id": "C74", "title": "Trimmed statistics are those of the central values", "statement": "The trimmed mean of a list of values removes the same proportion of the smallest and of the largest values and averages the rest.", "quantifier": "all value lists, image stacks and trim ratios in (0,1]", "why_tests_cant": "unbounded lists; rounding of the cut positions", "anchors": ["src/correct_images/tools/numerical.py:calc_mean_and_std_trimmed", "src/correct_images/tools/numerical.py:image_mean_std_trimmed"]}
{"id": "C75", "title": "The list of corrected images pairs every image with its own navigation", "statement": "filelist.csv contains exactly the navigation rows whose image's stem is that of an image written, in order, each with the file name of the first image written under its stem.", "quantifier": "all navigation tables and all sets of written images", "why_tests_cant": "name collisions depend on arbitrary directory layouts", "anchors": ["src/correct_images/corrector.py:Corrector.process_correction"]}
{"id": "C76", "title": "Colour correction handles every image type, independent of the channel order", "statement": "Colour correction processes every supported camera type, and red-first and blue-first images of one scene give the same result with both methods.", "quantifier": "all image types, pixels, gain matrices and subtractors", "why_tests_cant": "needs all combinations of type, method and parameters", "anchors": ["src/correct_images/corrector.py:Corrector.process_image", "src/correct_images/corrections/manual_balance.py:manual_balance"]}
{"id": "C77", "title": "Manual colour balance is the configured affine map", "statement": "Manual balance maps the subtractor pixel to black, is the identity for unit gains and no subtractor, loses no information when the gain matrix is invertible, and treats a grey image like one channel of a colour image with diagonal gains.", "quantifier": "all gain matrices, subtractors and pixels", "why_tests_cant": "continuum of matrices and pixels", "anchors": ["src/correct_images/corrections/manual_balance.py:manual_balance"]}
{"id": "C68", "title": "HyBis navigation conversion", "statement": "Rows without a longitude are dropped and the others keep their values, with coordinates read as signed degrees and minutes; a single missing (zero) altitude or depth inside the dive becomes the linear interpolation of its neighbours and other values are kept; every image gives one line, in order, whose values at the time of a record are those of that record and at other times lie on the line of the records at and after the first one not before it (the last two after the last but one); the reference is the given one or the first record with a latitude; a row with a longitude but no latitude stops the conversion.", "quantifier": "all navigation files, image times and references", "why_tests_cant": "unbounded number of records, gaps and image times", "anchors": ["src/auv_nav/parsers/hybis.py:HyBisPos.convert_latlon", "src/auv_nav/parsers/hybis.py:HybisParser.__init__"]}
{"id": "C71", "title": "Seafloor depth is depth plus altitude", "statement": "With two or more depth measurements and the last altitude after the first of them, every altitude measurement gets as seafloor depth its altitude plus the vehicle depth interpolated at its time between the two depth measurements around it; altitudes before the first depth measurement take the value of the first altitude after it; and the computation fails exactly when the last altitude is not after the first depth.", "quantifier": "all time-ordered depth and altitude lists", "why_tests_cant": "unbounded lists and all relative timings", "anchors": ["src/auv_nav/process.py:process"]}
{"id": "C72", "title": "Voyis PPS image records carry the image's own time", "statement": "When all image names have PPS at its place, every stills and laser image gives one record, stills first and in order, with the time in its own name converted to UTC, and stills records carry their own file name; in general the time is that of the last such name, and parsing fails exactly when there are more laser than stills images or an image has no such name at or before it.", "quantifier": "all image name lists, date formats, time zones and offsets", "why_tests_cant": "unbounded lists and mixes of name kinds", "anchors": ["src/auv_nav/parsers/parse_voyis.py:parse_voyis_images"]}
{"id": "C78", "title": "Dead reckoning is shifted to the USBL fixes on average", "statement": "Whenever a shift is computed the track is shifted so that its mean difference to the fixes used is zero, each fix being compared with a track position at its own time, and a shifted track is not shifted again; with fixes less than 20 s apart, a track sample between any two, and one of them but the first within the track, the shift exists and the fixes used are the ones within the track, each compared with the position between the two samples around it; and if they are the track moved by a constant, that constant is the shift.", "quantifier": "all dead-reckoning tracks and USBL fix lists", "why_tests_cant": "unbounded tracks and all relative timings of the two sensors", "anchors": ["src/auv_nav/localisation/usbl_offset.py:usbl_offset", "src/auv_nav/process.py:process"]}
{"id": "C79", "title": "An Imu quaternion becomes the same attitude", "statement": "The roll, pitch and heading read from a ROS Imu message's quaternion (squared length at least 8.9e-16) with no heading offset turn every body vector as the quaternion does, whatever the quaternion's length or sign; close to pointing straight up or down each component is off by at most 2e-15 of the vector's length; the standard deviations are the square roots of the covariance's diagonal, in degrees, roll lies in [-180, 180], pitch in [-90, 90] and, whatever the offset, the heading in [0, 360); a shorter quaternion is read as level and heading north.", "quantifier": "all quaternions, vectors and covariances", "why_tests_cant": "a continuum of attitudes including the singular ones", "anchors": ["src/auv_nav/tools/transformations.py:quaternion_matrix", "src/auv_nav/tools/transformations.py:euler_from_matrix", "src/auv_nav/tools/transformations.py:euler_from_quaternion", "src/auv_nav/sensors.py:Orientation.from_ros", "src/auv_nav/sensors.py:Orientation.apply_offset", "src/auv_nav/sensors.py:Orientation.apply_std_offset"]}
{"id": "C80", "title": "The DVL's own velocities give the track and attitude they imply", "statement": "Dead reckoning from inertial (north, east) velocities yields, for the records published, the area under the velocities from the first sample on; the records are the velocities in order, at most the first of them missing and none if all are later than the second of three or more orientations; every published record later than the second orientation and not later than the last has the roll, pitch and heading on the way between the two orientations around it, across north the short way, and within the depth samples the depth on their polyline.", "quantifier": "all velocity, orientation and depth lists", "why_tests_cant": "unbounded lists and all relative timings of three sensors; the defects need particular timings at the start", "anchors": ["src/auv_nav/process.py:process", "src/auv_nav/localisation/dead_reckoning.py:dead_reckoning", "src/auv_nav/tools/interpolate.py:interpolate"]}
{"id": "C81", "title": "PHINS messages are reported once, with their own values and time", "statement": "From a PHINS log every body velocity message whose own time can be decoded is reported exactly once and in order with its values, its own time and the time of the latest TIME message; likewise inertial velocities when all TIME messages can be decoded, and depths when these or all own times can; attitudes and altitudes of cycles with TIME and the standard deviations or LOGIN_ first have the values, times and deviations of their own cycle; and the times are the date in the file name plus the time of day, less the zone, plus the clock offset.", "quantifier": "all sequences of PHINS messages", "why_tests_cant": "unbounded message sequences and orders; the defects need a broken message or another order of messages", "anchors": ["src/auv_nav/parsers/parse_phins.py:PhinsParser.process_line", "src/auv_nav/parsers/parse_phins.py:PhinsTimestamp.epoch_timestamp_from_phins", "src/auv_nav/sensors.py:BodyVelocity.from_phins", "src/auv_nav/sensors.py:InertialVelocity.from_phins", "src/auv_nav/sensors.py:Orientation.from_phins", "src/auv_nav/sensors.py:Depth.from_phins", "src/auv_nav/sensors.py:Altitude.from_phins"]}
{"id": "C82", "title": "ALR, Autosub and koyo21 tables give one measurement per time", "statement": "For a table whose times are after 1970 and do not go back, the ALR, Autosub and koyo21 ROV parsers report, in strictly increasing order of time, exactly one velocity, orientation, depth, altitude or position for every time that has a usable row: that of the last usable row of that time, with its time, its values (angles from radians to degrees for ALR and Autosub, velocities from mm/s with the sign turned for Autosub) and the standard deviation from the configured factor and offset. Rows without bottom lock (ALR velocity, altitude) or with a missing value are not usable.", "quantifier": "all tables in order of time, all values including missing ones", "why_tests_cant": "unbounded tables with repeated times and missing values in any combination", "anchors": ["src/auv_nav/parsers/parse_alr.py:parse_alr", "src/auv_nav/parsers/parse_autosub.py:parse_autosub", "src/auv_nav/parsers/parse_koyo21rov.py:parse_koyo21rov", "src/auv_nav/sensors.py:BodyVelocity.from_alr", "src/auv_nav/sensors.py:Orientation.from_alr", "src/auv_nav/sensors.py:BodyVelocity.from_autosub", "src/auv_nav/sensors.py:BodyVelocity.from_koyo21rov"]}
{"id": "C83", "title": "The table parsers lose nothing when the clock steps back and depend on the table only", "statement": "For every table, in whatever order its times are, every time with a usable row is reported and the reports are in order of time; a position is reported only if it has coordinates and an uncertainty; and the reported times depend on the table, not on the computer that reads it.", "quantifier": "all tables", "why_tests_cant": "the defects need a clock step, a missing depth or position, or a computer in another zone", "anchors": ["src/auv_nav/parsers/parse_alr.py:parse_alr", "src/auv_nav/parsers/parse_autosub.py:parse_autosub", "src/auv_nav/parsers/parse_koyo21rov.py:parse_koyo21rov"]}
{"id": "C84", "title": "NTNU DVL rows are reported in order with their velocity and altitude", "statement": "The NTNU DVL parser reports, in the order of the files and rows, for every row whose velocity turned by the mounting angle is within 32 m/s in each direction, that velocity with the time of the row on the date of its file (in the zone of the computer) and with standard deviations from the configured factor and offset, and reports no other velocity. For the altitude it reports for every row the mean of the left and aft beam with the standard deviation from the configured factor.", "quantifier": "all files, rows, mounting angles, factors, offsets and zones", "why_tests_cant": "real-valued angles and velocities, unboundedly many rows", "anchors": ["src/auv_nav/parsers/parse_ntnu_dvl.py:parse_ntnu_dvl", "src/auv_nav/sensors.py:BodyVelocity.from_ntnu_dvl", "src/auv_nav/sensors.py:Altitude.from_ntnu_dvl"]}
{"id": "C85", "title": "NTNU DVL rows without bottom lock, after midnight or read elsewhere are handled", "statement": "Rows with the no-bottom-lock value (-32) are not reported as velocities; the reported times do not go back when a log runs past midnight; and they do not depend on the zone of the computer.", "quantifier": "all rows and zones", "why_tests_cant": "needs a lock loss with a turned DVL, a log over midnight or another computer", "anchors": ["src/auv_nav/parsers/parse_ntnu_dvl.py:parse_ntnu_dvl", "src/auv_nav/sensors.py:BodyVelocity.from_ntnu_dvl"]}
{"id": "C86", "title": "EIVA NaviPac lines are reported once, in order", "statement": "With a beacon label of one digit, the EIVA NaviPac parser reports for every depth line of that beacon with a non-zero time the time and depth in its fifth and sixth word; for every position line of that beacon the time, latitude, longitude and depth (minus the height); and for every attitude line with a complete $PRDID sentence its roll and pitch turned by the mounting angle and its heading within 0 to 360; in the order of the lines and nothing else, provided those lines can be read.", "quantifier": "all logs, labels of one character, and all behaviours of the date, number and sentence readers", "why_tests_cant": "unboundedly many lines of mixed types with free white space", "anchors": ["src/auv_nav/parsers/parse_eiva_navipac.py:parse_eiva_navipac", "src/auv_nav/sensors.py:Orientation.from_eiva_navipac", "src/auv_nav/sensors.py:Depth.from_eiva_navipac", "src/auv_nav/sensors.py:Usbl.from_eiva_navipac"]}
{"id": "C87", "title": "EIVA NaviPac logs are read for any beacon label and with damaged lines", "statement": "The depth and position lines of the configured beacon are found whatever its number and whether or not it is quoted in the mission file, and one damaged line does not prevent the others from being read.", "quantifier": "all labels and logs", "why_tests_cant": "the sample data has one beacon with one digit", "anchors": ["src/auv_nav/parsers/parse_eiva_navipac.py:parse_eiva_navipac", "src/auv_nav/sensors.py:Orientation.from_eiva_navipac"]}
{"id": "C88", "title": "Cameras and payloads are placed where they are mounted", "statement": "For a rigid vehicle with any attitude, mounting offsets and choice of origin: if the dead-reckoning track gives the DVL's northings, eastings and altitude and the depth sensor's depth at a sample, then the position interpolated for a camera or payload at that time (and between samples while the attitude is constant) has the northings, eastings, depth and altitude of the place it is mounted, with the latitude and longitude of these northings and eastings; the Kalman filter's USBL and depth measurements and its initial depth are those of the DVL, and northings, eastings and depth of a camera in its result are those of the place the camera is mounted.", "quantifier": "all attitudes, offsets, origins, track samples and positions (reals)", "why_tests_cant": "real-valued attitudes and offsets", "anchors": ["src/auv_nav/tools/interpolate.py:interpolate_sensor_list", "src/auv_nav/sensors.py:Camera.fromSyncedBodyVelocity", "src/auv_nav/localisation/ekf.py:Measurement.from_usbl", "src/auv_nav/localisation/ekf.py:Measurement.from_depth", "src/auv_nav/localisation/ekf.py:save_ekf_to_list", "src/auv_nav/process.py:process"]}
{"id": "C89", "title": "All position estimates use the mounting offsets consistently", "statement": "The latitude, longitude and altitude of Kalman filter cameras and the depth and altitude of particle filter cameras are those of the place the camera is mounted, as for dead reckoning; and the velocity that dead reckoning integrates is that of the DVL, whose track it is taken for.", "quantifier": "all attitudes, offsets and rigid motions", "why_tests_cant": "needs offsets between origin, DVL and depth sensor; sample data has them small or zero", "anchors": ["src/auv_nav/sensors.py:Camera.fromSyncedBodyVelocity", "src/auv_nav/localisation/ekf.py:save_ekf_to_list", "src/auv_nav/process.py:process"]}
{"id": "C90", "title": "Mounting offsets are those written in vehicle.yaml", "statement": "Loading a vehicle.yaml whose frames are complete gives for origin, INS, DVL, depth sensor and USBL exactly the six numbers of their frame (zeros if there is no such frame), for each of the first three cameras those of the frame named as its origin or, without one, of the frame with its name, and for every payload those of its frame; a camera without a frame is rejected; and for a file in the old format the headings of INS and DVL are the heading offsets of the mission's orientation and velocity entries.", "quantifier": "all YAML trees, missions and camera lists", "why_tests_cant": "all combinations of present, missing and renamed frames", "anchors": ["src/oplab/vehicle.py:Vehicle", "src/oplab/vehicle.py:SensorOffset.load"]}
{"id": "C91", "title": "The frames named in the mission are used, and frames that cannot be read are reported", "statement": "The offset used for a sensor is that of the frame the mission names for it; the heading offset of an old-format DVL frame is used; a frame without offsets is reported; and every camera gets an offset.", "quantifier": "all YAML trees and missions", "why_tests_cant": "sample missions use the default frame names", "anchors": ["src/oplab/vehicle.py:Vehicle", "src/oplab/vehicle.py:SensorOffset.load", "src/oplab/mission.py:Mission"]}
{"id": "C92", "title": "A camera's images are all the files its path describes", "statement": "For a path that is a folder, or the beginning of the image names in a folder, or that contains up to three '*' of which the first matches one folder, the image list is the list of all files with the camera's extension that the path describes (directly in the folder; beginning as written; anywhere below the matched folder; ending with or containing the text between stars), each once and in order of their paths, and the stamp list has for each image the time converted from its own name.", "quantifier": "all directory trees and listing orders, paths and extensions", "why_tests_cant": "the order and content of directory listings vary between machines; tests use one tree", "anchors": ["src/oplab/camera_system.py:CameraEntry.image_list", "src/oplab/camera_system.py:CameraEntry.stamp_list"]}
{"id": "C93", "title": "Starred camera paths and camera names are unambiguous", "statement": "A path with '*' describes the images of all folders that match, whatever the order of the listing, and none if no folder matches; folders written between stars are respected; and different cameras have different names.", "quantifier": "all directory trees, paths and names", "why_tests_cant": "needs several matching folders and different listing orders", "anchors": ["src/oplab/camera_system.py:CameraEntry.image_list", "src/oplab/camera_system.py:CameraEntry"]}
{"id": "C102", "title": "Camera headings are interpolated along the shorter arc", "statement": "The heading of a camera interpolated from another camera's track moves, modulo 360, from the heading before to the heading after along an arc of at most 180 degrees.", "quantifier": "all heading pairs in [0, 360], all time brackets and query times inside them, all three interpolation entry points", "why_tests_cant": "the wrap-around cases form a continuum with boundary cases at 0, 180 and 360; a finite suite misses combinations", "anchors": ["src/auv_nav/tools/interpolate.py:interpolate_camera"]}
{"id": "C103", "title": "No in-range sensor sample is dropped, extrapolated or mixed between the ends of the track", "statement": "After interpolating a time-sorted sensor list on a time-sorted navigation track, exactly the samples whose timestamps lie within the track's time span remain, and each remaining sample's pose is the linear interpolation between the two track samples whose timestamps bracket it (never an extrapolation and never mixing the end of the track with its start), wherever the sensor record starts and ends.", "quantifier": "all sorted sensor lists, all sorted tracks of any length, all relative alignments of the two", "why_tests_cant": "the outcome depends on a two-index scan whose corner cases depend on how the ends of the two lists interleave; there are unboundedly many alignments", "anchors": ["src/auv_nav/tools/interpolate.py:interpolate_sensor_list"]}
{"id": "C104", "title": "Camera poses are interpolated in the first bracket too", "statement": "A camera pose interpolated at a time between the first two samples of a camera track is on the line between them.", "quantifier": "all sorted camera tracks with at least two entries and all query times within the span", "why_tests_cant": "off-by-one errors at the start of the list are only visible for some positions of the query", "anchors": ["src/auv_nav/tools/interpolate.py:interpolate_camera"]}
{"id": "C107", "title": "DVL velocities are moved to the vehicle's centre in processing", "statement": "With the DVL's mounting position as the lever arm, as processing passes it, the correction turns the velocity measured at the DVL into that of the vehicle's centre; and angular rates can be derived at every sample of every track of two or more samples.", "quantifier": "all velocities, rates and lever arms; all tracks with increasing timestamps of any length", "why_tests_cant": "continuum of inputs and unbounded track lengths; first/last sample handling differs from the interior", "anchors": ["src/auv_nav/tools/dvl_level_arm.py:correct_lever_arm", "src/auv_nav/tools/dvl_level_arm.py:compute_angular_speeds"]}
{"id": "C109", "title": "The day of an epoch does not depend on the computer", "statement": "The day computed from an epoch is the UTC day, whatever the time zone the computer is set to.", "quantifier": "all valid Gregorian dates from 1970 on, all times of day, all timezone offsets", "why_tests_cant": "calendar arithmetic involves leap years and month lengths across an unbounded range of years", "anchors": ["src/auv_nav/tools/time_conversions.py:epoch_to_day"]}
{"id": "C110", "title": "A named timezone means the same offset everywhere", "statement": "Every timezone accepted in a mission file (utc, cet, bst, jst or a number of hours, as string or number) is interpreted as its standard offset from UTC, and the mission loader and the sensor parsers agree on it; anything else is rejected with an explicit error.", "quantifier": "all timezone entries a mission file can contain", "why_tests_cant": "two separate implementations must agree on every string, not on sampled ones", "anchors": ["src/auv_nav/tools/time_conversions.py:read_timezone", "src/oplab/mission.py:TimeZoneEntry"]}
{"id": "C111", "title": "Paths below several tree names are mapped or rejected", "statement": "The raw counterpart of a path inside a processed tree is not in the processed tree, also when the dataset lies below another folder called raw, processed or config.", "quantifier": "all paths (any depth, any component names)", "why_tests_cant": "paths are unbounded lists of arbitrary names, including names that merely contain 'raw'", "anchors": ["src/oplab/folder_structure.py:get_folder", "src/oplab/folder_structure.py:change_subfolder", "src/oplab/folder_structure.py:get_raw_folder", "src/oplab/folder_structure.py:get_processed_folder"]}
{"id": "C112", "title": "Every accepted date format is decoded", "statement": "For every date format accepted by the camera configuration and every file name built from a date by that format, the decoder returns exactly the encoded instant.", "quantifier": "all formats over the supported letters, all dates, all separators", "why_tests_cant": "format strings and dates are unbounded; tests use one or two fixed layouts", "anchors": ["src/oplab/filename_to_date.py:FilenameToDate"]}
{"id": "C113", "title": "A corrupted NMEA line with blanks is never accepted", "statement": "Replacing any one character of the body of an accepted line by a different character turns it into a rejected one, also in lines that contain blanks.", "quantifier": "all lines, all positions, all replacement characters", "why_tests_cant": "there are 255 replacements at every position of every line", "anchors": ["src/auv_nav/parsers/parse_phins.py:line_is_valid", "src/auv_nav/parsers/parse_phins.py:parse"]}
{"id": "C114", "title": "Interlacing orders any stamps and no records", "statement": "Interlacing yields time order for all positive stamps, and an empty list for an empty one.", "quantifier": "all record lists and all timestamp values", "why_tests_cant": "sortedness depends on how timestamps compare, including values with different digit counts", "anchors": ["src/auv_nav/parsers/parse_interlacer.py:parse_interlacer"]}
{"id": "C118", "title": "The EKF uses nothing after the end time", "statement": "No measurement after the requested end time is used by the EKF.", "quantifier": "all sorted sensor streams of any lengths, all query timestamp lists, ties included", "why_tests_cant": "a five-way merge with ties; the number of interleavings is unbounded", "anchors": ["src/auv_nav/localisation/ekf.py:ExtendedKalmanFilter.run"]}
{"id": "C119", "title": "No image loses its EKF pose", "statement": "Every image with a state at its time gets it, also when two images have the same timestamp, and states after the last dead-reckoning sample are handled.", "quantifier": "all camera lists and EKF state lists", "why_tests_cant": "merge joins misalign only for particular patterns of missing or duplicate timestamps", "anchors": ["src/auv_nav/localisation/ekf.py:update_camera_list", "src/auv_nav/localisation/ekf.py:save_ekf_to_list"]}
{"id": "C121", "title": "Particle weights sum to one however unlikely the fix", "statement": "After every USBL measurement the particle weights sum to one (or all particles are reset explicitly).", "quantifier": "all particle sets, weights and measurement likelihoods, any number of measurements", "why_tests_cant": "normalisation must survive arbitrary histories of multiplications", "anchors": ["src/auv_nav/localisation/pf.py:ParticleFilter.measure", "src/auv_nav/localisation/pf.py:ParticleFilter.get_neff"]}
{"id": "C122", "title": "Resampling equalises the weights and is proportional for every offset", "statement": "After resampling all particles have equal weight, and the counts are floor(N*w) or ceil(N*w) also for the offset 0.", "quantifier": "all weight vectors summing to one, all random offsets in [0,1), all N", "why_tests_cant": "the count bound is a statement about every real weight vector and every random draw", "anchors": ["src/auv_nav/localisation/pf.py:ParticleFilter.resample"]}
{"id": "C123", "title": "Particle trajectories record the full state that held at that time", "statement": "The i-th entry of a particle's trajectory is the particle's full state (position, depth, attitude, velocity, altitude) right after the i-th propagation; later propagations never change it.", "quantifier": "all sequences of propagations and measurements", "why_tests_cant": "aliasing bugs depend on the history after the entry was recorded", "anchors": ["src/auv_nav/localisation/pf.py:DeadReckoningMovementModel.propagate", "src/auv_nav/localisation/pf.py:run_particle_filter"]}
{"id": "C124", "title": "USBL fixes before the dead reckoning do not disturb the particle filter", "statement": "When USBL starts before the dead reckoning, the run finishes and every fix within the dead-reckoning span is used.", "quantifier": "all sorted DR and USBL lists", "why_tests_cant": "merge loops over two lists of unbounded length with ties", "anchors": ["src/auv_nav/localisation/pf.py:run_particle_filter"]}
{"id": "C125", "title": "The tide is applied up to the ends of the record", "statement": "Each depth whose timestamp lies within the span of the tide record, ends included, is reduced by the tide at its time, also when the depths are not in time order.", "quantifier": "all sorted tide records, all depth lists", "why_tests_cant": "the scan's behaviour at the first and last tide samples depends on list lengths and alignment", "anchors": ["src/auv_nav/parse.py:parse_single"]}
{"id": "C126", "title": "No output at all is overwritten without the force flag, and missing output is always produced", "statement": "Without the force option a command leaves every existing output file byte-for-byte unchanged; a dataset that has not been parsed yet is parsed.", "quantifier": "all file-system states and flag combinations, for parse, convert and correct_images", "why_tests_cant": "depends on which of many files exist; the state space of file systems is unbounded", "anchors": ["src/auv_nav/parse.py:check_output_files_exist", "src/auv_nav/parse.py:parse_single", "src/auv_nav/convert.py:acfr_to_oplab", "src/auv_nav/convert.py:oplab_to_acfr"]}
{"id": "C128", "title": "Dives with a single stereo pair are corrected", "statement": "The BioCam timestamp correction succeeds for every dive with at least one stereo pair.", "quantifier": "all lists of camera/computer timestamp pairs, any fitted slope", "why_tests_cant": "a statement about the minimum over lists of arbitrary length", "anchors": ["src/auv_nav/parsers/parse_biocam_images.py:correct_timestamps", "src/auv_nav/parsers/parse_biocam_images.py:line_fit"]}
{"id": "C129", "title": "No right image is in two stereo pairs, and none are needed", "statement": "No right image is used in two pairs, and a dive without right images has no pairs.", "quantifier": "all left and right timestamp lists and tolerances", "why_tests_cant": "nearest-neighbour claims range over arbitrary lists", "anchors": ["src/auv_nav/parsers/parse_acfr_images.py:parse_acfr_images", "src/auv_nav/parsers/parse_biocam_images.py:parse_biocam_images"]}
{"id": "C130", "title": "USBL dump positions are decoded with the right sign on both hemispheres", "statement": "A position in a USBL dump given as degrees, decimal minutes and hemisphere letter decodes to +/-(degrees + minutes/60), negative exactly for S and W.", "quantifier": "all degrees, minutes in [0,60), all hemispheres, all parsers", "why_tests_cant": "tests use data from one or two geographic regions", "anchors": ["src/auv_nav/parsers/parse_usbl_dump.py:parse_usbl_dump"]}
{"id": "C131", "title": "Badly formatted GAPS packets are never reported and headings are handled in any order and across north", "statement": "The GAPS parser emits a fix only if the target packet and the two ship packets around it were well formed; the heading attached to the fix is interpolated between the headings immediately before and after it, across north correctly, whatever the order of the packets.", "quantifier": "all sequences of log lines", "why_tests_cant": "a state machine driven by arbitrary line sequences", "anchors": ["src/auv_nav/parsers/parse_gaps.py:parse_gaps"]}
{"id": "C132", "title": "Parsed vehicle streams are strictly increasing whatever the clock does", "statement": "The ALR and Autosub parsers return records with strictly increasing timestamps, whatever the order of the records in the log, and keep a record for each timestamp.", "quantifier": "all logs, including logs whose clock steps backwards", "why_tests_cant": "depends on the history of timestamps in the log", "anchors": ["src/auv_nav/parsers/parse_alr.py:parse_alr", "src/auv_nav/parsers/parse_autosub.py:parse_autosub"]}
{"id": "C133", "title": "The last RDI ensemble and the attitudes in PD6 order are reported correctly", "statement": "The last ensemble of an RDI log is reported, and attitudes in PD6 order carry the timestamp of their own ensemble.", "quantifier": "all sequences of log lines", "why_tests_cant": "stale-state and end-of-file behaviour depends on arbitrary line sequences", "anchors": ["src/auv_nav/parsers/parse_rdi.py:parse_rdi", "src/auv_nav/sensors.py:BodyVelocity.export"]}
{"id": "C134", "title": "ACFR pose files round-trip completely", "statement": "Writing a dead-reckoning list or stereo camera list to an ACFR pose file and parsing it back yields the same poses (positions, attitude in degrees, altitude), with the same origin.", "quantifier": "all lists of poses", "why_tests_cant": "round trips must hold for every attitude and any list length", "anchors": ["src/auv_nav/parsers/acfr_vehicle_pose.py:AcfrVehiclePoseParser", "src/auv_nav/parsers/acfr_vehicle_pose.py:AcfrVehiclePoseWriter", "src/auv_nav/parsers/acfr_stereo_pose.py:AcfrStereoPoseParser"]}
{"id": "C136", "title": "All sensor records survive the JSON round trip", "statement": "Tide records can be read back, a body velocity keeps its own timestamp, a single image can be read as any camera, and standard deviations are not negative.", "quantifier": "all records of every sensor category", "why_tests_cant": "needs every field of every category for all values", "anchors": ["src/auv_nav/sensors.py:BodyVelocity", "src/auv_nav/sensors.py:Tide", "src/auv_nav/sensors.py:Depth", "src/auv_nav/sensors.py:Usbl", "src/auv_nav/sensors.py:Orientation", "src/auv_nav/sensors.py:Altitude"]}
{"id": "C137", "title": "Navigation CSV files are complete for any records", "statement": "A single record is written; file names with commas round-trip; payloads of every kind have the columns of their header; covariances stay in step with their records; vehicle poses are written with their velocities.", "quantifier": "all record lists of every length", "why_tests_cant": "list lengths and values unbounded; short lists behave differently", "anchors": ["src/auv_nav/tools/csv_tools.py:write_csv", "src/auv_nav/sensors.py:Camera.to_csv_row", "src/auv_nav/sensors.py:Camera.from_df"]}
{"id": "C139", "title": "Every stamp used is inside the window and the default window is everything", "statement": "Every stamp used in processing is inside the requested window, and without a requested window every record is used.", "quantifier": "all record lists and windows", "why_tests_cant": "filtering must hold for all records", "anchors": ["src/auv_nav/process.py:process"]}
{"id": "C140", "title": "Dives with BioCam lasers can be merged", "statement": "Dives with the same origin are merged whatever their laser records.", "quantifier": "all lists of dives and records", "why_tests_cant": "lists of arbitrary length", "anchors": ["src/auv_nav/parse.py:merge_json_files"]}
{"id": "C141", "title": "All mission files round-trip", "statement": "A mission configuration written to YAML and loaded again yields the same sensors, offsets, timezones and options.", "quantifier": "all mission configurations", "why_tests_cant": "optional fields give exponentially many configurations", "anchors": ["src/oplab/mission.py:Mission.write", "src/oplab/mission.py:Mission.__init__", "src/oplab/mission.py:DefaultEntry"]}
{"id": "C142", "title": "Image statistics are right with saturated and ignored pixels", "statement": "With saturated pixels the streaming statistics do not depend on the order of the images, and with ignore_zeroes they are those of the other values.", "quantifier": "all sequences of images (pixel values) of any length", "why_tests_cant": "needs induction over the number of images", "anchors": ["src/correct_images/tools/numerical.py:RunningMeanStd", "src/correct_images/tools/numerical.py:mean_std_array"]}
{"id": "C143", "title": "The attenuation fit starts from finite parameters", "statement": "For positive samples the starting point of the attenuation fit, which is returned when the fit fails, is finite.", "quantifier": "all parameters within bounds, altitudes, intensities", "why_tests_cant": "a continuum of parameters and altitudes", "anchors": ["src/correct_images/tools/curve_fitting.py:curve_fitting"]}
{"id": "C144", "title": "The corrected image has the target mean", "statement": "The mean of the corrected image is the target mean.", "quantifier": "all images, statistics with positive deviation, targets", "why_tests_cant": "continuum of inputs", "anchors": ["src/correct_images/corrections/pixel_stat.py:pixel_stat", "src/correct_images/corrector.py:Corrector.process_image"]}
{"id": "C145", "title": "Gamma correction is local and maps [0,1] to [0,1]", "statement": "The gamma correction maps every pixel in [0,1] to a value in [0,1], and a pixel's result depends only on that pixel's value.", "quantifier": "all images with values in [0,1]", "why_tests_cant": "branching on whole-image conditions only shows for particular mixtures of dark and bright pixels", "anchors": ["src/correct_images/corrections/gamma.py:gamma_correct"]}
{"id": "C146", "title": "XVIII files of the wrong size are noticed", "statement": "A file that is too long is rejected, or at least distinct files decode to distinct images.", "quantifier": "all byte strings of every valid size", "why_tests_cant": "2^96 values per 12-byte group", "anchors": ["src/correct_images/loaders/xviii.py:load_xviii_bayer_from_binary", "src/correct_images/loaders/xviii.py:loader"]}
{"id": "C147", "title": "All loaded images are normalised to [0, 1)", "statement": "Loading an image of any bit depth with any loader yields pixel values in [0,1).", "quantifier": "all pixel values, bit depths", "why_tests_cant": "ranges over all stored values and bit depths", "anchors": ["src/correct_images/loaders/default.py:loader", "src/correct_images/loaders/loader.py:Loader"]}
{"id": "C148", "title": "Rescaling never produces an empty image and always finds the altitude", "statement": "Rescaling never produces an empty image or crop for a positive scale, and every image with a row of its own gets that row's altitude.", "quantifier": "all image sizes, altitudes, target sizes; all image name lists", "why_tests_cant": "integer rounding and name matching over unbounded inputs", "anchors": ["src/correct_images/corrections/rescale.py:rescale", "src/correct_images/corrections/rescale.py:rescale_images"]}
{"id": "C149", "title": "Altitudes stay aligned with depth maps and every image is binned", "statement": "The altitude list stays aligned with the image list when images without depth map are left out, and every selected image falls in some bin.", "quantifier": "all altitude lists, bounds, and patterns of missing depth maps", "why_tests_cant": "alignment across filtered lists depends on arbitrary patterns", "anchors": ["src/correct_images/corrector.py:Corrector.get_imagelist", "src/correct_images/corrector.py:Corrector.get_altitude_and_depth_maps", "src/correct_images/corrector.py:Corrector.generate_attenuation_correction_parameters"]}
{"id": "C150", "title": "Each intensity stays paired with its own altitude", "statement": "Removing non-finite samples before fitting the attenuation curve removes whole (altitude, intensity) pairs: each remaining intensity is still paired with the altitude it was measured at.", "quantifier": "all altitude and intensity lists with arbitrary patterns of non-finite entries", "why_tests_cant": "the misalignment depends on the pattern of non-finite values", "anchors": ["src/correct_images/tools/curve_fitting.py:curve_fitting"]}
{"id": "C151", "title": "Resizing a camera model scales what project_point returns", "statement": "After resizing a camera model by a ratio, project_point returns the original projection scaled by the ratio, and resizing applies to stereo calibrations too.", "quantifier": "all intrinsics, all points in front of the camera, all ratios", "why_tests_cant": "projective scale ambiguities hide errors for sampled points", "anchors": ["src/oplab/camera_models.py:MonoCamera"]}
{"id": "C152", "title": "Configuration equivalence determines processing", "statement": "Comparing configurations is reflexive for all of them, and two configurations deemed equivalent agree on every parameter that influences the trained colour model.", "quantifier": "all pairs and triples of configurations", "why_tests_cant": "needs all combinations of parameters", "anchors": ["src/correct_images/parser.py:CorrectConfig.is_equivalent"]}
{"id": "C153", "title": "RANSAC returns the best model it found", "statement": "The model and inlier set returned by RANSAC are those of the iteration with the most inliers among all iterations run, and every reported inlier satisfies the inlier test of the returned model.", "quantifier": "all data sets, sampling sequences, thresholds", "why_tests_cant": "depends on the whole random sampling history", "anchors": ["src/auv_cal/ransac.py:run_ransac", "src/auv_cal/ransac.py:plane_fitting_ransac"]}
{"id": "C154", "title": "All plane parametrisations denote the plane they were built from", "statement": "A plane built from any coefficients contains exactly the points satisfying the given equation and has a unit normal, a plane built from pitch, yaw and a point contains that point, and a ray meets a plane in front of its start.", "quantifier": "all coefficient vectors with nonzero normal, all points and rays", "why_tests_cant": "continuum of planes; in-place aliasing only matters for non-unit normals", "anchors": ["src/auv_cal/plane_fitting.py:Plane", "src/auv_cal/laser_calibrator.py:build_plane", "src/auv_cal/laser_calibrator.py:plane_through_3_points"]}
{"id": "C155", "title": "ALR clock correction is monotone and total", "statement": "For every accepted log of polls the correction is monotone and gives every time a corrected time.", "quantifier": "all increasing poll lists with at least two polls, all query times", "why_tests_cant": "piecewise definition over arbitrary poll lists", "anchors": ["src/scripts/adjust_alr_to_biocam_time.py:TimeCorrector.correct_timestamp"]}
{"id": "C156", "title": "All CSV output is independent of thread timing", "statement": "The contents of every CSV file written in the background equal the records as they were when the file was scheduled, whatever the interleaving with the remaining processing.", "quantifier": "all schedules of writer threads and main thread", "why_tests_cant": "schedules cannot be enumerated by tests", "anchors": ["src/auv_nav/process.py:process", "src/auv_nav/tools/csv_tools.py:write_csv"]}
{"id": "C158", "title": "Laser line detection tries every window of the search range", "statement": "For each image column the detected laser row is in the window with the largest weighted sum among all windows in the search range, and there is a detection when one is above the threshold.", "quantifier": "all images, window sizes and search ranges", "why_tests_cant": "maximum over all windows of all images", "anchors": ["src/auv_cal/laser_calibrator.py:findLaserInImage"]}
{"id": "C159", "title": "Euler angles reproduce every rotation matrix exactly", "statement": "For every rotation matrix built from yaw, pitch, roll, the extracted Euler angles rebuild exactly the same matrix.", "quantifier": "all angles away from and at gimbal lock", "why_tests_cant": "continuum of angles with a singular set", "anchors": ["src/auv_cal/euler_angles_from_rotation_matrix.py:euler_angles_from_rotation_matrix"]}
{"id": "C160", "title": "Images are matched by exact stem wherever files are selected", "statement": "An image whose stem is listed in the CSV is kept, and rescaling uses the row of the image with the same stem.", "quantifier": "all lists of file names", "why_tests_cant": "substring collisions depend on arbitrary names", "anchors": ["src/correct_images/tools/file_handlers.py:trim_csv_files", "src/correct_images/corrections/rescale.py:rescale_images"]}
{"id": "C161", "title": "The caller of an image write is told whether it worked", "statement": "The caller is told when every attempt to write an image failed, and a write that succeeds on a later attempt is a success.", "quantifier": "all sequences of write outcomes", "why_tests_cant": "failures are environmental; all outcome sequences must be covered", "anchors": ["src/correct_images/tools/file_handlers.py:write_output_image"]}
{"id": "C162", "title": "Synchronisation keeps every orientation inside the velocity record and never mixes the ends of a record", "statement": "The synchronised result has one record for every orientation sample within the velocity record, and altitude and depth before their first sample are not computed from the last one.", "quantifier": "all time-increasing orientation, velocity, altitude and depth records of any length", "why_tests_cant": "Depends on the relative position of four independent clocks; the wrong index only shows at the ends of a record or when exactly one orientation precedes the first velocity.", "anchors": ["src/auv_nav/process.py:process"]}
{"id": "C164", "title": "The same zone and clock offset mean the same thing in every parser", "statement": "For every sensor parser, a clock reading t recorded in a zone h hours ahead of UTC with a mission timeoffset of s seconds is converted to the same UTC epoch, t - 3600*h + s.", "quantifier": "all parsers that read a local clock, all zones, offsets and clock readings", "why_tests_cant": "Each parser has its own arithmetic; a test with UTC data and no offset exercises none of it, and an error shows up only as misregistered sensors.", "anchors": ["src/auv_nav/parsers/parse_phins.py:parse_phins", "src/auv_nav/parsers/parse_rdi.py:parse_rdi", "src/auv_nav/parsers/parse_rosbag.py:parse_rosbag", "src/auv_nav/parsers/parse_voyis.py:parse_voyis_images", "src/auv_nav/parsers/parse_acfr_images.py:parse_acfr_images"]}
{"id": "C166", "title": "All smoothed EKF covariances are covariance matrices", "statement": "After smoothing the states recorded by any run with nondecreasing time stamps, each smoothed covariance is positive semidefinite.", "quantifier": "all runs of any length, all process and measurement noises, all motion models", "why_tests_cant": "unbounded histories of matrices; the first state is treated differently from the others only because of its array type", "anchors": ["src/auv_nav/localisation/ekf.py:EkfImpl.smooth", "src/auv_nav/localisation/ekf.py:EkfImpl.set_initial_state"]}
{"id": "C168", "title": "HyBis images get values between the records around them", "statement": "Every image of a HyBis dive gets values between those of the two records around it, headings the short way across north, and missing altitudes and depths are filled with values between those around them.", "quantifier": "all navigation files, image times and references", "why_tests_cant": "unbounded number of records, gaps and image times", "anchors": ["src/auv_nav/parsers/hybis.py:HyBisPos.convert_latlon", "src/auv_nav/parsers/hybis.py:HybisParser.__init__"]}
{"id": "C169", "title": "Loading EKF states finds the range in any order", "statement": "Loading states between two image identifiers that are in the file returns the rows of both.", "quantifier": "all state files and identifiers", "why_tests_cant": "unbounded files; positions of the two identifiers are arbitrary", "anchors": ["src/auv_nav/tools/csv_tools.py:load_states"]}
{"id": "C170", "title": "SLAM edges connect all images with their forward motion", "statement": "For all images the exported EDGE3 lines form one chain, and each edge carries the displacement from its first to its second image.", "quantifier": "all image lists, numbering gaps and poses", "why_tests_cant": "arbitrary gaps in image numbers and arbitrary positions", "anchors": ["src/auv_nav/tools/csv_tools.py:spp_csv", "src/auv_nav/process.py:process"]}
{"id": "C171", "title": "The seafloor depth is always computed", "statement": "Every altitude measurement of a dive with depth measurements gets a seafloor depth.", "quantifier": "all time-ordered depth and altitude lists", "why_tests_cant": "unbounded lists and all relative timings", "anchors": ["src/auv_nav/process.py:process"]}
{"id": "C172", "title": "All Voyis image records carry the image's own time and file", "statement": "Every stills and laser image gives one record with the time in its own name (PPS or SYSTEM format), converted to UTC, and its own file name.", "quantifier": "all image name lists, date formats, time zones and offsets", "why_tests_cant": "unbounded lists and mixes of name kinds", "anchors": ["src/auv_nav/parsers/parse_voyis.py:parse_voyis_images"]}
{"id": "C173", "title": "RANSAC statistics use the best fitting sample", "statement": "The robust mean of a pixel over a bin of images is that of the inliers of the random sample that fits best among all samples drawn.", "quantifier": "all value lists, thresholds and sampling sequences", "why_tests_cant": "depends on the whole random sampling history", "anchors": ["src/correct_images/tools/numerical.py:ransac_mean_std_1d", "src/correct_images/tools/numerical.py:ransac_mean_std"]}
{"id": "C174", "title": "Trimmed statistics of images are those of the central values", "statement": "The trimmed mean of every pixel of a stack of images is the mean of its central values.", "quantifier": "all value lists, image stacks and trim ratios in (0,1]", "why_tests_cant": "unbounded lists; rounding of the cut positions", "anchors": ["src/correct_images/tools/numerical.py:calc_mean_and_std_trimmed", "src/correct_images/tools/numerical.py:image_mean_std_trimmed"]}
{"id": "C175", "title": "Every row of filelist.csv names its own image", "statement": "The rows of different raw images name different corrected images.", "quantifier": "all navigation tables and all sets of written images", "why_tests_cant": "name collisions depend on arbitrary directory layouts", "anchors": ["src/correct_images/corrector.py:Corrector.process_correction"]}
{"id": "C176", "title": "Manual balance handles every image type with its own channels", "statement": "For every supported camera type manual balance processes the image, and the gains and subtractors given for red, green and blue are applied to these channels.", "quantifier": "all image types, pixels, gain matrices and subtractors", "why_tests_cant": "needs all combinations of type, method and parameters", "anchors": ["src/correct_images/corrector.py:Corrector.process_image", "src/correct_images/corrections/manual_balance.py:manual_balance"]}
{"id": "C178", "title": "Dead reckoning is shifted to any USBL fixes", "statement": "Whenever there are USBL fixes within the dead-reckoning track, a shift is computed, and fixes on the track give no shift.", "quantifier": "all dead-reckoning tracks and USBL fix lists", "why_tests_cant": "unbounded tracks and all relative timings of the two sensors", "anchors": ["src/auv_nav/localisation/usbl_offset.py:usbl_offset", "src/auv_nav/process.py:process"]}
{"id": "C179", "title": "An Imu's heading offset turns the attitude", "statement": "With a heading offset, the attitude read from a ROS Imu message is that of the quaternion turned by the offset about the body's z axis (in one sense or the other), and its standard deviations are not negative.", "quantifier": "all quaternions, vectors and covariances", "why_tests_cant": "a continuum of attitudes including the singular ones", "anchors": ["src/auv_nav/tools/transformations.py:quaternion_matrix", "src/auv_nav/tools/transformations.py:euler_from_matrix", "src/auv_nav/tools/transformations.py:euler_from_quaternion", "src/auv_nav/sensors.py:Orientation.from_ros", "src/auv_nav/sensors.py:Orientation.apply_offset", "src/auv_nav/sensors.py:Orientation.apply_std_offset"]}
{"id": "C180", "title": "Every record of the inertial track has the attitude of its time", "statement": "Every published record has an attitude, within those recorded.", "quantifier": "all velocity, orientation and depth lists", "why_tests_cant": "unbounded lists and all relative timings of three sensors; the defects need particular timings at the start", "anchors": ["src/auv_nav/process.py:process", "src/auv_nav/localisation/dead_reckoning.py:dead_reckoning", "src/auv_nav/tools/interpolate.py:interpolate"]}
{"id": "C181", "title": "PHINS messages have their own values and time in every log", "statement": "From any PHINS log every depth and altitude has its own time, every message that of its cycle, and later messages have later times.", "quantifier": "all sequences of PHINS messages", "why_tests_cant": "unbounded message sequences and orders; the defects need a broken message or another order of messages", "anchors": ["src/auv_nav/parsers/parse_phins.py:PhinsParser.process_line", "src/auv_nav/parsers/parse_phins.py:PhinsTimestamp.epoch_timestamp_from_phins", "src/auv_nav/sensors.py:BodyVelocity.from_phins", "src/auv_nav/sensors.py:InertialVelocity.from_phins", "src/auv_nav/sensors.py:Orientation.from_phins", "src/auv_nav/sensors.py:Depth.from_phins", "src/auv_nav/sensors.py:Altitude.from_phins"]}
{"id": "C94", "title": "Sensor samples become measurements of exactly what they observe", "statement": "An orientation, velocity, depth or USBL sample becomes a measurement at its own time of exactly the attitude, the velocity, the depth or the horizontal position, in radians and with the mounting offset turned by the current attitude added, with independent components whose standard deviations are the reported ones when the first of them is positive and otherwise offset plus factor times the size of the measured value; and a run on any samples, noise models and offsets finishes, in time order, with covariance matrices throughout.", "quantifier": "all samples, noise models, mounting offsets, states and sample lists", "why_tests_cant": "a test fixes the samples and one noise model; which components a measurement touches and with what variance must hold for all of them", "anchors": ["src/auv_nav/localisation/ekf.py:Measurement.from_depth", "src/auv_nav/localisation/ekf.py:Measurement.from_dvl", "src/auv_nav/localisation/ekf.py:Measurement.from_usbl", "src/auv_nav/localisation/ekf.py:Measurement.from_orientation", "src/auv_nav/localisation/ekf.py:ExtendedKalmanFilter.run"]}
{"id": "C95", "title": "Noise models give every measured component a sensible uncertainty", "statement": "With positive noise models every measured component without reported standard deviation gets a positive variance, headings 360 degrees apart are equally uncertain, and the uncertainty of a USBL fix does not depend on the choice of the local origin.", "quantifier": "all samples and noise models", "why_tests_cant": "fails only for partly reported deviations, negative angles, headings near north and far origins", "anchors": ["src/auv_nav/localisation/ekf.py:Measurement.from_dvl", "src/auv_nav/localisation/ekf.py:Measurement.from_usbl", "src/auv_nav/localisation/ekf.py:Measurement.from_orientation"]}
{"id": "C96", "title": "Published EKF states are the filter's states", "statement": "Every published standard deviation is the nonnegative square root of the variance, in degrees for angles and angular rates; a published state read back is the same state; and a run starts at the time, position, attitude and velocity of the dead reckoning, with no angular rate.", "quantifier": "all states with a covariance matrix and all dead-reckoning samples", "why_tests_cant": "twelve components and their unit conversions for all values", "anchors": ["src/auv_nav/localisation/ekf.py:EkfState.toSyncedOrientationBodyVelocity", "src/auv_nav/localisation/ekf.py:EkfState.fromSyncedOrientationBodyVelocity", "src/auv_nav/localisation/ekf.py:ExtendedKalmanFilter.build_state"]}
{"id": "C97", "title": "Colour correction gives the same image from any distance", "statement": "The output of process_image has 8-bit levels whatever the inputs; images of the same surface from any distances give exactly the same output; at the target altitude only brightness and contrast are applied; and within one image a brighter value of the same pixel parameters and distance never gets a lower level.", "quantifier": "all images, distances, trained parameters, brightness and contrast settings and all further treatment between normalisation and gamma", "why_tests_cant": "real-valued parameters per pixel; the composition of attenuation, statistics, gamma and conversion must hold for all of them", "anchors": ["src/correct_images/corrector.py:Corrector.process_image", "src/correct_images/corrections/gamma.py:gamma_correct"]}
{"id": "C98", "title": "A brighter image is never processed darker", "statement": "If every value of one image is at least that of another image with the same parameters, no output level of the first is below that of the second.", "quantifier": "all pairs of images", "why_tests_cant": "the gamma formula is chosen by all pixels of the image together", "anchors": ["src/correct_images/corrector.py:Corrector.process_image", "src/correct_images/corrections/gamma.py:gamma_correct"]}
{"id": "C99", "title": "Parsing a dive writes every record of every configured sensor, in time order", "statement": "parse_single runs one parser for every configured section of mission.yaml and none for the others, the parser being decided by the format alone, and quits for a format that is not supported; nav_standard.json then holds the origin and every record returned by these parsers exactly once, unchanged except for the times of BioCam images and, with a tide section, the depths of depth and USBL records, which are reduced by the tide at their time; the origin is first and the records are in order of time when their stamps have the same number of digits.", "quantifier": "all mission configurations, all results of the parsers, all tide records", "why_tests_cant": "any combination of sections and formats and any interleaving of times", "anchors": ["src/auv_nav/parse.py:parse_single", "src/auv_nav/parsers/parse_interlacer.py:parse_interlacer"]}
{"id": "C200", "title": "Timestamps of all BioCam images are corrected", "statement": "Two missions whose images are read by the BioCam parser get the same timestamps for the same images.", "quantifier": "all pairs of mission configurations", "why_tests_cant": "depends on the combination of format and parser", "anchors": ["src/auv_nav/parse.py:parse_single", "src/auv_nav/parsers/parse_biocam_images.py:correct_timestamps"]}
{"id": "C106", "title": "Inertial-to-body conversion undoes body-to-inertial conversion", "statement": "For every attitude, converting a vector from body to inertial frame and back with the same roll, pitch and yaw returns the original vector.", "quantifier": "all roll, pitch, yaw angles and all vectors", "why_tests_cant": "an error in one matrix entry is invisible whenever the sampled attitude has a zero angle", "anchors": ["src/auv_nav/tools/inertial_to_body.py:inertial_to_body", "src/auv_nav/tools/body_to_inertial.py:body_to_inertial"]}
{"id": "C127", "title": "Parsing a dive does not depend on the dives parsed before it", "statement": "When several dives are parsed in one invocation, the records produced for each dive equal the records produced when that dive is parsed alone.", "quantifier": "all sequences of dives and all image lists", "why_tests_cant": "history dependence through module state appears only for sequences of at least two dives", "anchors": ["src/auv_nav/parsers/parse_acfr_images.py:parse_acfr_images", "src/auv_nav/parsers/parse_biocam_images.py:parse_biocam_images", "src/auv_nav/parse.py:parse"]}
{"id": "C157", "title": "All dives contribute to the colour model", "statement": "When several dives are parsed together for colour correction, the trained colour model uses the images of every dive and each image appears once.", "quantifier": "all lists of dives, all correction methods", "why_tests_cant": "history dependence over a list of dives", "anchors": ["src/correct_images/corrector.py:Corrector.get_imagelist", "src/correct_images/corrector.py:Corrector.parse"]}
{"id": "C163", "title": "Reported velocity uncertainties are standard deviations", "statement": "Velocity standard deviations transformed to the north/east/down frame are never negative and depend on the body-frame standard deviations only through their magnitude.", "quantifier": "all attitudes and all nonnegative body-frame standard deviations", "why_tests_cant": "The sign depends on the attitude; a test at zero heading always passes.", "anchors": ["src/auv_nav/process.py:process", "src/auv_nav/tools/body_to_inertial.py:body_to_inertial"]}
{"id": "C167", "title": "The particle filter starts at the USBL-corrected dead-reckoning position", "statement": "The prior of the particle filter is the first dead-reckoning position displaced by the mean difference between USBL fixes and dead reckoning.", "quantifier": "all dead-reckoning and USBL lists", "why_tests_cant": "The displacement is an arbitrary real pair; only an algebraic argument shows the result is the same for every one of them.", "anchors": ["src/auv_nav/localisation/pf.py:get_prior"]}
{"id": "C201", "title": "The AE2000 parser reports the rows it should, with the right times, units and angles", "statement": "parse_ae2000 (ftype oplab) reads every text 'Y/M/D h:m:s.mmm' as its UTC time to the millisecond plus the velocity section's time offset, and leaves out rows whose cell is empty or has no seconds. Of the other rows, velocities and altitudes are reported exactly for those with bottom lock, orientations for all of them, in file order. Velocities are millimetres per second divided by 1000 and turned by the DVL's mounting angles (roll, then pitch, then yaw), so the speed is kept. The heading differs from compass plus mounting angle by whole turns and lies in [0,360]. A tilted INS stops the program at the first row with a time. Reported depths are positive, consecutive ones differ, and at every row with a positive depth the last reported depth is that depth. Standard deviations are |value| * factor + offset.", "quantifier": "all numbers of rows, all times from 1970 to 9999 written with any numbers of digits, all values, angles, offsets and factors", "why_tests_cant": "The table has unboundedly many rows and the depth filter depends on the whole history; times and angles range over infinite sets.", "anchors": ["src/auv_nav/parsers/parse_ae2000.py:parse_ae2000"]}
{"id": "C202", "title": "The AE2000 parser reads any fraction of a second, uses each section's own time offset, and reports every depth", "statement": "For every row: the fraction of the second is read as a decimal fraction whatever its number of digits, times of whole seconds are accepted, each category is shifted by its own timeoffset_s, the heading is below 360, and every row with a positive depth is reported.", "quantifier": "all rows and missions", "why_tests_cant": "A claim about all texts and all missions; refuted by witnesses.", "anchors": ["src/auv_nav/parsers/parse_ae2000.py:parse_ae2000"]}
{"id": "C203", "title": "The SeaXerocks image parser gives each image of FileTime.csv its own time and an existing file", "statement": "parse_seaxerocks_images (oplab) returns one record per row of the stereo FileTime.csv, in order, and after them one per row of the laser file. Each has the row's local time converted to UTC with the mission's zone, to the millisecond, plus the mission's and the camera's offsets. Header rows are left out, and in the laser file also lines of fewer than four cells. Stereo files are <path>/<number>.raw. An image number with a point makes the parser fail rather than shift times to other images. All laser images are named by one of four conventions (jpg or tif, 1000 or 10000 images a folder). If every laser image is stored by one convention, the last one nowhere else, and the first four digits of its number are not all equal (or all images are among the first 1000), every laser record names an existing file. Serials replace slashes after the first letter and keep the rest.", "quantifier": "all FileTime.csv files of any length, all image numbers, times from 1970 to 9999, zones, offsets, camera settings and disk contents", "why_tests_cant": "The search through the index and the choice of the naming convention depend on whole files and on the state of the disk.", "anchors": ["src/auv_nav/parsers/parse_seaxerocks_images.py:parse_seaxerocks_images", "src/auv_nav/parsers/parse_seaxerocks_images.py:determine_extension_and_images_per_folder", "src/auv_nav/parsers/parse_seaxerocks_images.py:build_image_path"]}
{"id": "C204", "title": "The SeaXerocks image parser copes with blank lines, a missing last image and any image number", "statement": "For every input: empty lines of the stereo FileTime.csv are skipped as those of the laser file are; a laser image that exists is named correctly even if the last image is missing or its number starts with four equal digits; serials have no slash.", "quantifier": "all files, disks and labels", "why_tests_cant": "A claim about all disks and files; refuted by witnesses.", "anchors": ["src/auv_nav/parsers/parse_seaxerocks_images.py:parse_seaxerocks_images", "src/auv_nav/parsers/parse_seaxerocks_images.py:determine_extension_and_images_per_folder"]}
{"id": "C205", "title": "Koyo20rov dives: images keep their interpolated poses, lever arms and names", "statement": "Date and time numbers of the image list and of the ship log are read as the civil time they spell, to the millisecond. Of a ship log the positions later than all before them are used, positions of all logs sorted by time; a depth, altitude or coordinate of zero is replaced by the value on the line between the neighbours. When records are strictly ordered and images ordered, every image gets for latitude, longitude, depth, altitude, heading, pitch and roll the value on the line between the two records around it; the conversion keeps exactly the images taken within the times of both positions and rotations, in order, and fails if that leaves no laser image or no colour image. Rows written for two sensors differ by their offset turned into the inertial frame (added to northing, easting and depth, taken from the altitude). Output names of distinct indexes differ. The speed filter drops exactly the positions that need more than 20 m/s from the last one kept. Ship logs are the .csv files whose stem does not end in F, I or X.", "quantifier": "all logs, tracks, image lists, sensor offsets and rotations, times from 1970 to 9999, indexes below 10^7", "why_tests_cant": "The two-pointer scan and the sifting carry state along tracks of any length; the lever arm claim is about all attitudes.", "anchors": ["src/auv_nav/parsers/koyo20rov.py:RovParser", "src/auv_nav/parsers/koyo20rov.py:RovPos", "src/auv_nav/parsers/koyo20rov.py:RovRot", "src/auv_nav/parsers/koyo20rov.py:RovCam", "src/auv_nav/convert.py:koyo20rov_to_oplab"]}
{"id": "C206", "title": "Koyo20rov dives: every record is used, gaps are left alone and headings turn the short way", "statement": "For every input: all positions of an ordered log are used; a missing depth is filled from its two neighbours only; headings are interpolated the short way; colour images are converted also without laser images in range; every csv log not named ...FIX.csv is read; a jump is dropped by the speed filter; an image at the first position gets it.", "quantifier": "all logs and image lists", "why_tests_cant": "Claims about all inputs; refuted by witnesses.", "anchors": ["src/auv_nav/parsers/koyo20rov.py:RovParser", "src/auv_nav/convert.py:koyo20rov_to_oplab"]}
{"id": "C207", "title": "Graph.find_path returns a simple path exactly when the end can be reached", "statement": "find_path(s, e) returns a list that starts at s, ends at e, follows listed neighbours and passes no vertex twice; it returns None exactly when no walk along listed neighbours leads from s to e; the result does not depend on the recursion limit. edges() lists each joined pair of vertices once, whichever direction(s) it is stored in. add_vertex adds a missing vertex without neighbours and changes nothing else; add_edge adds exactly one arrow between the two vertices.", "quantifier": "all graphs (cyclic ones and loops included), all vertices, all orders in which a set is popped", "why_tests_cant": "The search backtracks through graphs of any size; completeness with a path-dependent visited list is not obvious.", "anchors": ["src/auv_nav/tools/graph.py:Graph"]}
{"id": "C208", "title": "Graph.add_edge makes the second vertex reachable from the first, and paths are shortest", "statement": "For every graph: after add_edge((a, b)) find_path(a, b) finds a path; an edge can be walked both ways; the vertices of edges() are vertices(); find_path returns a shortest path.", "quantifier": "all graphs", "why_tests_cant": "A claim about all graphs and set orders; refuted by witnesses.", "anchors": ["src/auv_nav/tools/graph.py:Graph"]}
{"id": "C209", "title": "Attenuation curves are fitted to the means of the altitude bins, whatever the order of the parallel jobs", "statement": "generate_attenuation_correction_parameters puts an image in bin b exactly when its distance is at least parse_altitude_min + b/10 and less than 0.1 m more; the bins cover the range without gap or overlap up to an edge within 5 cm of parse_altitude_max, and images without distance are in no bin. Bins of fewer than ten images leave their rows zero. For the others compute_distance_bin writes the mean of exactly their images' distances, which lies inside the bin (or with depth maps the mean depth of the pixel, if no depth is zero), and with smoothing mean the mean of their values. The rows are the same in whichever order the jobs run. So for positive values the samples given to the curve fit are one per bin of at least ten images, of strictly increasing distance. It stops exactly when there are fewer than three images.", "quantifier": "all image lists, altitudes (also missing), ranges, pixel values and job orders", "why_tests_cant": "The bin edges are a real parameter and the job order is not controllable; the claim is about sums over lists of any length.", "anchors": ["src/correct_images/corrector.py:Corrector.generate_attenuation_correction_parameters", "src/correct_images/corrector.py:Corrector.compute_distance_bin"]}
{"id": "C210", "title": "All images in the altitude range contribute to the attenuation curves, with their own distances", "statement": "For every setting: every image between parse_altitude_min and parse_altitude_max is used; a bin's distance is the mean over the images whose values were used, and lies in the bin.", "quantifier": "all image lists and settings", "why_tests_cant": "Claims about all inputs; refuted by witnesses.", "anchors": ["src/correct_images/corrector.py:Corrector.generate_attenuation_correction_parameters", "src/correct_images/corrector.py:Corrector.compute_distance_bin"]}
{"id": "C211", "title": "The laser calibration pairs images by time and detections by column, and samples every depth layer evenly", "statement": "pointcloud_from_peaks pairs exactly the detections of the two images that lie in the same column, each once and in order, and the cloud has the triangulated points of the pairs that are not behind the camera; the returned counts are those of the kept and dropped pairs. In exact arithmetic (for rounding see C251 and C252) z_stratified_sampling raises nothing; its output keeps the order of the shuffled cloud, lies between min_z and max_z and has of each of the equally high layers exactly the first max_points points, so the number per layer does not depend on the shuffling. A left image is synchronised with the right image nearest in time (the first of equals) exactly when that is within 50 ms; short names pair exactly when the left name without 'image' is the right name. Of more than 500 images that all have a partner, 500 different pairs are taken in order. Detections read back from the cache are those that were written, if there were any.", "quantifier": "all detection lists with whole increasing columns, clouds, layer settings, image lists and times", "why_tests_cant": "The pairing and sampling loops range over lists of any length; the shuffle is random.", "anchors": ["src/auv_cal/laser_calibrator.py:LaserCalibrator.pointcloud_from_peaks", "src/auv_cal/laser_calibrator.py:LaserCalibrator.z_stratified_sampling", "src/auv_cal/laser_calibrator.py:LaserCalibrator.cal", "src/auv_cal/laser_calibrator.py:get_laser_pixels_in_image_pair"]}
{"id": "C212", "title": "Only synchronised image pairs enter the laser calibration and the cache is transparent", "statement": "For every dataset: only synchronised pairs are processed and no right image twice; the calibration runs when 500 pairs or more exist; a second run finds the detections of the first; no layer has more points than allowed; detections less than a pixel apart are paired.", "quantifier": "all datasets and settings", "why_tests_cant": "Claims about all inputs; refuted by witnesses.", "anchors": ["src/auv_cal/laser_calibrator.py:LaserCalibrator.cal", "src/auv_cal/laser_calibrator.py:get_laser_pixels_in_image_pair"]}
{"id": "C213", "title": "Triangulation recovers the point; plane angles and uncertainty planes describe the laser plane", "statement": "If a point is seen at two pixels by a rectified stereo pair (cameras side by side or one above the other, at different places), triangulate_lst and triangulate_dlt return exactly that point, whichever last singular vector the decomposition gives (its fourth cell is not zero). opencv_to_ned is a rotation that takes camera up to forward. get_angle gives the angle between 0 and 90 degrees whose cosine is |n_x|/|n|. get_angles gives pitch and yaw strictly between -90 and 90 degrees and build_plane of them has the direction of the normal. When the search for uncertainty planes ends there are exactly as many as asked for, each with first coefficient 1, through three sampled inliers at least min_dist apart and not aligned. The scaled mean plane is the fitted plane.", "quantifier": "all points, focal lengths, principal points, baselines, normals and sample sequences", "why_tests_cant": "Claims over the reals, and about every sequence of random samples.", "anchors": ["src/auv_cal/laser_calibrator.py:triangulate_lst", "src/auv_cal/laser_calibrator.py:triangulate_dlt", "src/auv_cal/laser_calibrator.py:opencv_to_ned", "src/auv_cal/laser_calibrator.py:get_angle", "src/auv_cal/laser_calibrator.py:get_angles", "src/auv_cal/laser_calibrator.py:LaserCalibrator.fit_and_save"]}
{"id": "C214", "title": "Each laser gets its own uncertainty planes and the search for them ends", "statement": "For every calibration: the uncertainty planes written for the second laser go through points of the second laser; the search ends for every inlier cloud; the angles of a plane do not depend on the sign of its normal.", "quantifier": "all clouds, samples and normals", "why_tests_cant": "Claims about all inputs; refuted by witnesses.", "anchors": ["src/auv_cal/laser_calibrator.py:LaserCalibrator.fit_and_save", "src/auv_cal/laser_calibrator.py:LaserCalibrator.cal", "src/auv_cal/laser_calibrator.py:get_angles"]}
{"id": "C215", "title": "ROS bags are read message by message", "statement": "The measurements read from ROS bags are, in order, one for every usable message before the first of an unknown type in each bag that opens, and each depends only on its message: velocities of a Cola2 DVL with bottom lock, a positive variance and under 2.5 m/s, of a Teledyne DVL with a valid bottom or else water velocity (from mm/s) and of a SprintNav INS, turned by the heading offset about the vertical; altitudes that are not negative, not marked invalid or not zero, with the deviation a fraction of them; depths as sent or from pressure over 1030*9.80665; orientations with no heading offset as sent, the heading brought to [0, 360]; positions with latitude and longitude at their distance and bearing from the origin, or the reverse. The time is the stamp less the offset. An object exports its data exactly once.", "quantifier": "all bags, messages, offsets and factors", "why_tests_cant": "unbounded sequences of messages handled by one stateful object", "anchors": ["src/auv_nav/parsers/parse_rosbag.py:rosbag_topic_worker", "src/auv_nav/sensors.py:OutputFormat.export", "src/auv_nav/sensors.py:BodyVelocity.from_ros", "src/auv_nav/sensors.py:BodyVelocity.apply_offset", "src/auv_nav/sensors.py:Altitude.from_ros", "src/auv_nav/sensors.py:Depth.from_ros", "src/auv_nav/sensors.py:Orientation.from_ros", "src/auv_nav/sensors.py:Usbl.from_ros", "src/auv_nav/sensors.py:Usbl.fill_from_lat_lon_depth"]}
{"id": "C216", "title": "ROS bags are read faithfully", "statement": "Every usable message of a ROS bag is reported in either output format, at its stamp less the time zone, with no component marked as missing, with deviations that are those of the message and not negative, and independently of the messages before.", "quantifier": "all bags, messages, offsets and factors", "why_tests_cant": "unbounded sequences of messages handled by one stateful object", "anchors": ["src/auv_nav/parsers/parse_rosbag.py:rosbag_topic_worker", "src/auv_nav/parsers/parse_rosbag.py:parse_rosbag", "src/auv_nav/sensors.py:OutputFormat.export", "src/auv_nav/sensors.py:BodyVelocity.from_ros", "src/auv_nav/sensors.py:Depth.from_ros", "src/auv_nav/sensors.py:Usbl.from_ros"]}
{"id": "C217", "title": "Tide tables and NMEA fixes are read line by line", "statement": "Every record of a POLPRED or CTI tide file (after six header lines) and every NMEA sentence of the configured beacon is reported, in order, once: at the written local time less the zone plus the clock offset, with the written height or position; the fix lies at the geodesic distance and bearing from the reference, its depth is the negated altitude, and its deviations are the configured linear function of depth. Lines without a tab and sentences of other beacons are left out.", "quantifier": "all files of well-formed lines, all dates to 9999, zones, offsets, beacons and readings of the sentences", "why_tests_cant": "needs all dates, digit widths, signs and paddings and all interleavings of beacons", "anchors": ["src/auv_nav/parsers/parse_NOC_polpred.py:parse_NOC_polpred", "src/auv_nav/parsers/parse_tide_CTI.py:parse_tide_CTI", "src/auv_nav/parsers/parse_NOC_nmea.py:parse_NOC_nmea", "src/auv_nav/sensors.py:from_nmea"]}
{"id": "C218", "title": "Tide tables and NMEA fixes are read in every variant", "statement": "A tide file with the documented five header lines loses no record, tide deviations are not negative, the last line is read the same with and without a line end, a fraction of a second may have any number of digits or be absent, a beacon may be named by text, and the deviations of latitude and longitude are the deviation in metres expressed in degrees.", "quantifier": "all files in the documented format", "why_tests_cant": "needs the particular file lengths, digit counts and latitudes", "anchors": ["src/auv_nav/parsers/parse_NOC_polpred.py:parse_NOC_polpred", "src/auv_nav/parsers/parse_tide_CTI.py:parse_tide_CTI", "src/auv_nav/parsers/parse_NOC_nmea.py:parse_NOC_nmea", "src/auv_nav/sensors.py:from_nmea"]}
{"id": "C219", "title": "Calibration uses views that differ and covers all detections", "statement": "Going through the detections in the order of the images, a view of the calibration board is used if and only if it differs by more than 0.12 (sum of the differences of position, size and skew) from every view used before; so the views used are pairwise more than 0.12 apart and every other detection is within 0.12 of one of them. Repeating the calibration from the saved JSON with a new calibrator uses the same views; stereo pairs are chosen in the same way by their left views. Left and right views are matched by equal names, or for names with a camera code by the nearest time within 50 ms.", "quantifier": "all lists of detections, all parameters, all lists of file names", "why_tests_cant": "needs all orders and distances of detections, including chains of views that are each close to the next", "anchors": ["src/auv_cal/camera_calibrator.py:is_good_sample", "src/auv_cal/camera_calibrator.py:collect_corners", "src/auv_cal/camera_calibrator.py:cal_from_json", "src/auv_cal/camera_calibrator.py:find_common_filenames"]}
{"id": "C220", "title": "The choice of calibration views does not depend on history or order", "statement": "Calibrating from JSON with a calibrator that was used before uses the same views as with a new one; the number of views used does not depend on the order of the images; no right view is paired with two left views; a prefix \"image\" is removed from every name that has it.", "quantifier": "all calibrators, orders and names", "why_tests_cant": "needs a second use of one calibrator, particular distances and mixed names", "anchors": ["src/auv_cal/camera_calibrator.py:is_good_sample", "src/auv_cal/camera_calibrator.py:cal_from_json", "src/auv_cal/camera_calibrator.py:find_common_filenames"]}
{"id": "C221", "title": "A camera calibration reports the best of at most five solutions", "statement": "A monocular calibration solves for all views, then repeatedly for those whose own reprojection error is at most the larger of a quarter pixel and the average error plus twice the deviation, until all are acceptable or five solutions were found; it reports the first solution with the least error and its number of views. No round is empty if some view's error is at most the average, and each round has fewer views. A stereo calibration that ends reports the first least error among at most five sets of at least eight pairs, the second being the pairs with an epipolar error below mean plus twice the deviation; with an error of at most 0.6 the first solution is final and the rectification belongs to it; fewer than eight pairs end the program.", "quantifier": "all solvers, views, errors and pairs", "why_tests_cant": "needs all solver results and error distributions over all rounds", "anchors": ["src/auv_cal/camera_calibrator.py:cal_fromcorners"]}
{"id": "C222", "title": "A camera calibration is consistent in itself and loses nothing", "statement": "A stereo pair is left out only for its own epipolar error; pairs with equal errors are all kept; a solution that was found is reported; the rectification and projection matrices written belong to the rotation and translation written; the undistortion maps belong to the reported intrinsics; a second calibration with the same calibrator reports a solution for its own views.", "quantifier": "all solvers, errors and histories", "why_tests_cant": "needs solver results with several rounds of elimination", "anchors": ["src/auv_cal/camera_calibrator.py:cal_fromcorners", "src/auv_cal/camera_calibrator.py:set_alpha", "src/auv_cal/camera_calibrator.py:epipolar_error_from_images"]}
{"id": "C223", "title": "Sonardyne logs are read as written", "statement": "In an MRT log, values whose commas are followed by spaces stay one value, every line whose first value does not begin with a space is reproduced by its values up to blanks at its end, and the first line and those from the thirty-seventh on give their observations in order. If the logs have a position of the ship and a heading, each position of the vehicle gives one record, in order of time, with the vehicle's position and depth, the earliest ship's position and heading not before it (or the latest if all are before), the slant distance as hypotenuse of lateral distance and depth, deviations proportional to it plus an offset, metres at the distance and bearing from the origin, and its time moved by the zone and the clock offset. In the four GGA variants exactly the rows of the configured beacon are kept, in order, as degrees plus minutes over sixty with the hemisphere's sign, and with date and clock as in the row (or date from the file name).", "quantifier": "all lines, logs, times, positions, separators and files", "why_tests_cant": "needs every arrangement of commas and spaces and all interleavings of three time series", "anchors": ["src/auv_nav/parsers/parse_sonardyne_mrt.py:parse_mrt_csv", "src/auv_nav/parsers/parse_sonardyne_mrt.py:find_closest_observations", "src/auv_nav/parsers/parse_sonardyne_mrt.py:parse_sonardyne_mrt", "src/auv_nav/parsers/parse_sonardyne_mrt.py:parse_gga2_txt"]}
{"id": "C224", "title": "Sonardyne logs are read completely and with the right partner and time", "statement": "Every line of an MRT log counts once; complete range observations are read; the ship's position used is the closest in time; the configured file itself is read; positions of the vehicle are kept when the ship's are missing; a GGA file that runs past midnight has increasing times; a row without a fraction of seconds does not affect the others; the clock offset has the same effect in all formats.", "quantifier": "all logs", "why_tests_cant": "needs logs with rare lines and recordings across midnight", "anchors": ["src/auv_nav/parsers/parse_sonardyne_mrt.py:parse_mrt_csv", "src/auv_nav/parsers/parse_sonardyne_mrt.py:find_closest_observations", "src/auv_nav/parsers/parse_sonardyne_mrt.py:parse_sonardyne_gga"]}
{"id": "C225", "title": "A detected board is described, ordered and matched to its own points", "statement": "The outside corners are those of the first and last row and column; the area is that of their quadrilateral, independent of the direction of the corners and at most that of any upright rectangle around the board; the skew is twice the deviation of a corner from a right angle, capped at one, and zero exactly for a right angle. For a board in the image the four parameters lie in [0,1]; a centred board smaller than the image has one half in both directions, and moving it right or down never lowers them nor changes size and skew. A detection is accepted exactly if all corners are more than eight pixels inside, its corners are only permuted, and go from top to bottom (a square board seen as a square in any rotation: from top left to bottom right). The search radius of every chessboard is defined, for square ones half the least distance of neighbours rounded up. The points of the board are distinct and evenly spaced. A resized image is padded along one axis, equally on both sides, to the requested proportion up to less than two pixels.", "quantifier": "all boards, corner positions, image sizes", "why_tests_cant": "needs all shapes and orientations of boards over the reals", "anchors": ["src/auv_cal/camera_calibrator.py:_get_area", "src/auv_cal/camera_calibrator.py:_get_skew", "src/auv_cal/camera_calibrator.py:_get_corners", "src/auv_cal/camera_calibrator.py:get_parameters", "src/auv_cal/camera_calibrator.py:mk_object_points", "src/auv_cal/camera_calibrator.py:resize_with_padding"]}
{"id": "C226", "title": "Boards of every shape and images of every size are treated alike", "statement": "On every board the search radius is at most the distance to the next corner; a square board goes from top left to bottom right from every viewpoint; the parameters grow as a board of any size moves across the image; a symmetric grid is also looked for with its dimensions swapped; a resized image has the requested size.", "quantifier": "all boards and sizes", "why_tests_cant": "needs boards with different numbers of rows and columns and oblique views", "anchors": ["src/auv_cal/camera_calibrator.py:_get_corners", "src/auv_cal/camera_calibrator.py:_get_circles", "src/auv_cal/camera_calibrator.py:resize_with_padding", "src/auv_cal/camera_calibrator.py:get_parameters"]}
{"id": "C227", "title": "Calibration commands write only their own files and keep calibrations consistent with their detections", "statement": "The suffix of the output files is the typed one with an underscore in front if it lacks one, and no suffix only if none is typed. If every camera calibration in the folder is the solution for the detections beside it, this is so after any of the commands mono, stereo and laser with any flags. Without -F and -FF no existing file changes, except the second pair's file in the other direction and the plane of the second laser. mono changes only files with its suffix; stereo and laser with a suffix change no camera calibration, and laser with a suffix no stereo calibration. A second mono run without flags changes nothing and ends normally. A mono run with -F that ends normally leaves for every camera with detections their solution and keeps the detections; with -FF both are made again from the images; a camera without a board keeps what it has. The calibration of the first pair is made from the two camera calibrations without suffix as they are in the folder, the second one at the size of the first.", "quantifier": "all folders, flags, suffixes, lists of cameras, results of detection and of the solvers", "why_tests_cant": "needs all combinations of existing files and flags", "anchors": ["src/auv_cal/calibration.py:calibrate_mono", "src/auv_cal/calibration.py:calibrate_stereo", "src/auv_cal/calibration.py:calibrate_laser", "src/auv_cal/calibration.py:mono", "src/auv_cal/calibration.py:stereo", "src/auv_cal/calibration.py:laser_imp"]}
{"id": "C228", "title": "Every missing calibration is made, and only those asked for are made again", "statement": "Without -F each missing calibration is made and each existing one kept; with -FF all intermediate results are made again; the images of every camera are looked for in the processed and in the raw folder; a camera with too few images does not keep the others from being calibrated.", "quantifier": "all folders and flags", "why_tests_cant": "needs partially calibrated folders", "anchors": ["src/auv_cal/calibration.py:calibrate_mono", "src/auv_cal/calibration.py:calibrate_stereo", "src/auv_cal/calibration.py:stereo", "src/auv_cal/calibration.py:laser_imp"]}
{"id": "C229", "title": "Cone fitting: rotations, residuals and ray intersections are geometrically right", "statement": "rotation_matrix turns about the axis (of any length) by the angle, counterclockwise, keeping lengths, angles and orientation. For a point off the axis of a cone with a unit axis, distance is the absolute sine of the angle between the cone and the point seen from the apex; it is zero exactly on the cone, and times the distance from the apex it is the distance to the nearest point of the cone when the point is at most a right angle away from it. The stored axis has length one, is parallel to the given one and does not point backwards. ray_intersection returns exactly the points of the line on the cone or its mirror image, unless the line is parallel to one in the cone.", "quantifier": "all axes, angles, cones, points and rays", "why_tests_cant": "infinitely many configurations over the reals", "anchors": ["src/auv_cal/cone_fitting.py:rotation_matrix", "src/auv_cal/cone_fitting.py:_distance", "src/auv_cal/cone_fitting.py:_from_coeffs", "src/auv_cal/cone_fitting.py:ray_intersection"]}
{"id": "C230", "title": "Cone distances are in metres and rays meet the cone in front of the camera", "statement": "distance is the distance to the nearest point of the cone, also on the axis; from_coeffs describes the cone it is given; ray_intersection finds the point in which a ray meets the cone, and only points of the cone in front of the camera.", "quantifier": "all cones, points and rays", "why_tests_cant": "needs points at various distances, on the axis, and rays parallel to the cone", "anchors": ["src/auv_cal/cone_fitting.py:_distance", "src/auv_cal/cone_fitting.py:_from_coeffs", "src/auv_cal/cone_fitting.py:ray_intersection"]}
{"id": "C231", "title": "Navigation files for users have exactly the rows of the images, and the acquisition statistics add up", "statement": "simplify_nav_file and generate_nav_file_for_squidle write a file if and only if replacing is allowed, the folder has images of one kind (png or jpg) and one of them is in the table; it has exactly the rows whose stem with this extension is in the folder, by time, with the requested columns. If the stems of the table differ, each image has one row at most and one if it is in the table. Degrees and minutes add up to the degrees with one sign; the bounding box contains all images and each side has one. image_acquisition_stats counts exactly the images of the time window below the threshold; the bottom time lies between the first and last of them and contains at least as many images; the distance is at least the straight one; at constant altitude the area is distance times visible width; hours, minutes and seconds add up.", "quantifier": "all tables, folders, options, thresholds", "why_tests_cant": "needs all tables and folders", "anchors": ["src/scripts/simplify_nav_file.py:simplify_nav_file", "src/scripts/simplify_nav_file.py:deg_to_deg_min", "src/scripts/generate_nav_file_for_squidle.py:generate_nav_file_for_squidle", "src/scripts/image_acquisition_stats.py"]}
{"id": "C232", "title": "Navigation files have one row for each image and statistics count the bottom only", "statement": "Each image of the folder in the table has one row; folders with images of any kind are accepted; printed minutes are below 60; the bounding box is the smallest on the globe; the distance at the bottom is that between images at the bottom, whatever the order of the rows.", "quantifier": "all tables and folders", "why_tests_cant": "needs several cameras, the antimeridian, excursions from the bottom", "anchors": ["src/scripts/simplify_nav_file.py:simplify_nav_file", "src/scripts/simplify_nav_file.py:deg_to_deg_min", "src/scripts/image_acquisition_stats.py"]}
{"id": "C233", "title": "From the logs to the poses: straight motion is reconstructed, errors grow at most linearly, and the heading's zero only turns the map", "statement": "For logs with increasing times and at least three orientations while velocities are recorded, of a vehicle that does not turn and whose horizontal velocity changes evenly, with sensors anywhere on it that tell the truth, the dead-reckoning path from the logs to the images' poses never raises; every pose has its image's time and the true attitude, and the position and altitude of that camera apart from one fixed horizontal shift and at most acceleration times gap squared over eight, none at constant velocity. All images between the second and the last but one orientation get a pose. With no USBL offset the shift puts the DVL's first position at zero. For any motion: velocities wrong by at most eps move the track by at most eps times the elapsed time and change nothing else; all headings turned by an angle and all clocks shifted turn and shift the poses, nothing else.", "quantifier": "all logs, mountings, motions, numbers of records, shifts and angles", "why_tests_cant": "needs all motions, mountings and log lengths", "anchors": ["src/auv_nav/process.py:process", "src/auv_nav/tools/interpolate.py:interpolate_sensor_list", "src/auv_nav/tools/dvl_level_arm.py:compute_angular_speeds", "src/auv_nav/tools/dvl_level_arm.py:correct_lever_arm", "src/auv_nav/localisation/dead_reckoning.py:dead_reckoning"]}
{"id": "C234", "title": "From the logs to the poses: turning, short logs and first images", "statement": "A vehicle turning on the spot has a track within the circle of its DVL; the pose of an image does not depend on which point is called the origin; two orientations are enough; images after the first velocity and the first orientation after it get a pose.", "quantifier": "all logs and mountings", "why_tests_cant": "needs particular motions with truth data", "anchors": ["src/auv_nav/process.py:process", "src/auv_nav/tools/interpolate.py:interpolate_sensor_list", "src/auv_nav/tools/dvl_level_arm.py:compute_angular_speeds"]}
{"id": "C235", "title": "Images extracted from ROS bags get one record each, at the time in their name", "statement": "extract_rosbag_images writes one file for each stamp, with the last image of that stamp. parse_rosbag_extracted_images makes one record for each file that has neither .txt nor ._ in its name, in the order of the listing, or raises if one of these names is no time; the first camera's file is that file, the second camera's the first file of the same time. For stamps of at least one second, no two within the same ten nanoseconds, and any order of the listing, each message has one record, of the stamp without its last digit, with its image for both cameras. The ACFR text has two lines for each record. parse_stereo_gopro_images makes records of exactly the rows with both files.", "quantifier": "all messages, stamps, listings, tables", "why_tests_cant": "needs all stamps and folder orders", "anchors": ["src/scripts/extract_rosbag_images.py:main", "src/auv_nav/parsers/parse_rosbag.py:parse_rosbag_extracted_images", "src/auv_nav/parsers/parse_stereo_gopro.py:parse_stereo_gopro_images"]}
{"id": "C236", "title": "Extracted images are paired between cameras at the time of their stamp", "statement": "Images of the two cameras within 50 ms are paired; the time is the stamp; stamps below one second are read as written; images some nanoseconds apart have their own file for both cameras; other files in the folder are ignored.", "quantifier": "all folders and stamps", "why_tests_cant": "needs particular stamps and folders", "anchors": ["src/scripts/extract_rosbag_images.py:main", "src/auv_nav/parsers/parse_rosbag.py:parse_rosbag_extracted_images"]}
{"id": "C237", "title": "Colour parameters are shared by the dives parsed together and used when they are processed", "statement": "When `correct_images parse` finishes for several dives with colour correction, then for every camera of the first dive that is in the configuration, each dive's folder image/<camera>/params_<metric>[_<suffix>] holds the files the metric needs, computed from the last dive's images and configuration, and nothing outside these folders has changed. `process` of any of these dives with the same suffix then writes each selected image, corrected with exactly these parameters, into corrected_<metric>_mean_<brightness>_std_<contrast>[_<suffix>]; it does not finish if one of them is missing. Neither command, without force, changes an existing file, however it ends. Both finish if the dives are equivalent, no output exists (or force is given), the images and depth maps are there and at least three images are selected. Two configurations share an output folder only if metric, suffix and the integer parts of brightness and contrast agree.", "quantifier": "all dives, cameras, configurations, suffixes, contents of the disk", "why_tests_cant": "needs all lists of dives and cameras and all prior contents of the disk", "anchors": ["src/correct_images/correct_images.py:call_parse", "src/correct_images/correct_images.py:call_process", "src/correct_images/corrector.py:Corrector.parse", "src/correct_images/corrector.py:Corrector.process", "src/correct_images/corrector.py:Corrector.load_configuration", "src/correct_images/corrector.py:Corrector.create_output_directories", "src/correct_images/parser.py:CorrectConfig.is_equivalent"]}
{"id": "C238", "title": "correct_images runs for every configuration and keeps the results of configurations apart", "statement": "The command correct does what parse followed by process does; images in ROS bags, mission files of version 0 and configurations without a colour_correction section can be used; images of different brightness are kept in different folders; images are processed with parameters computed for their configuration; the order of the dives given to parse does not matter.", "quantifier": "all dives and configurations", "why_tests_cant": "needs particular configurations and sequences of commands", "anchors": ["src/correct_images/correct_images.py:call_correct", "src/correct_images/correct_images.py:main", "src/correct_images/corrector.py:Corrector.load_configuration", "src/correct_images/corrector.py:Corrector.set_path", "src/correct_images/corrector.py:Corrector.create_output_directories"]}
{"id": "C239", "title": "Reading the configuration of a dive never overwrites a file, prefers the dive's own files, and repeats itself", "statement": "load_configuration_and_camera_system changes no existing file of the dive except a log of the same time, and writes only the log, a missing correct_images[_<suffix>].yaml and (for rosbag) a missing camera.yaml, however it ends. When it returns, the camera system was read from the configuration folder's camera.yaml, else from the raw folder's, else from the package's file for the image format of mission.yaml, and its name is that format; the configuration was read from correct_images[_<suffix>].yaml, which holds what it held before or else the package's file; exactly the mission's cameras that the camera system lacks are warned about; and a second call returns the same. The values read are those of the file, with the documented defaults where a key or section is missing, one altitude range standing for both, and only valid methods, metrics and camera types accepted. A dive of any of the nine formats that has nothing but mission.yaml is accepted with the package's files, which, except for rosbag, configure only cameras of the camera system. The output folder of a camera balanced by hand can be named exactly when the gains reach the diagonal of a 3 by 3 matrix and there are three subtractors.", "quantifier": "all files, suffixes, missions, prior contents of the folders", "why_tests_cant": "needs all combinations of present and missing files and all contents of them", "anchors": ["src/correct_images/correct_images.py:load_configuration_and_camera_system", "src/correct_images/parser.py:CorrectConfig.__init__", "src/correct_images/parser.py:ColourCorrection.__init__", "src/correct_images/parser.py:CameraConfig.__init__", "src/oplab/camera_system.py:CameraEntry.__init__", "src/oplab/camera_system.py:CameraSystem._parse", "src/correct_images/corrector.py:Corrector.create_output_directories"]}
{"id": "C240", "title": "The checks of the configuration detect mismatches and the shipped files can be used as they are", "statement": "A camera whose type in mission.yaml differs from that in camera.yaml is rejected; a camera with the same name in both is found; every image format that auv_nav reads gets a default correct_images.yaml; the shipped rosbag files name the same cameras; the shipped manual balance settings can be used; target_pixel_size is in metres as the shipped files say; their rescale section can be used as it is.", "quantifier": "all dives and shipped files", "why_tests_cant": "needs the combination of particular files", "anchors": ["src/correct_images/correct_images.py:load_configuration_and_camera_system", "src/correct_images/parser.py:RescaleImage.__init__", "src/correct_images/corrector.py:Corrector.create_output_directories", "src/oplab/mission.py:CameraEntry.__init__"]}
{"id": "C241", "title": "auv_nav process takes its settings from auv_nav.yaml and writes exactly the files they ask for, one thread per file", "statement": "When auv_nav.yaml is read, every setting is the value at its place in the file; the uncertainty model of a sensor is that under its name or, failing that, its older name, with \"sensor\" for a missing model; the covariances are the 12x12 corner of the square of 12 or 15 in the file, row after row; SLAM++ output is on only with the Kalman filter; the shipped file is read. With plain payload names, when the run ends, the csv files there are exactly those due: per solution that is on, the track, the cameras, the laser and the payloads whose flag is True and that have two records or more; the sidescan tracks likewise; nothing of an output that is off. The run ends without an exception when the sections it needs are in the file and the cameras are named. Every record written has a pose of an existing track when the tracks asked for exist, and no two threads write to one file when the names differ.", "quantifier": "all contents of auv_nav.yaml, camera and payload names, numbers of records, combinations of filters and flags", "why_tests_cant": "needs all combinations of about thirty settings with all names and record counts", "anchors": ["src/auv_nav/process.py:process", "src/auv_nav/tools/csv_tools.py:write_csv", "src/auv_nav/tools/csv_tools.py:write_sidescan_csv", "src/auv_nav/tools/csv_tools.py:spp_csv"]}
{"id": "C242", "title": "auv_nav process works with any readable settings and any names, and writes only estimated poses", "statement": "Every auv_nav.yaml that is read lets the run end without an exception, with defaults for missing sections and models; a covariance matrix may be given as rows; pose files of a filter hold poses estimated by it; a payload may have any name; SLAM++ output works with one camera and relative uncertainties with two; no two threads write to one file; a single image gets its pose written; a flag means the same for all files.", "quantifier": "all settings, names and record counts", "why_tests_cant": "needs particular combinations of names, sections and empty lists", "anchors": ["src/auv_nav/process.py:process", "src/auv_nav/tools/csv_tools.py:write_csv", "src/auv_nav/tools/csv_tools.py:write_sidescan_csv"]}
{"id": "C243", "title": "correct_images rescale writes the rescaled image of every image with one distance row, and nothing else", "statement": "When the rescale command finishes, every camera of the configuration that is in camera.yaml had its calibration and distance files, and each image of its folder whose name ends in .jpg, .png or .tif either has no row, with a warning, or has exactly one row whose stem occurs in its name, and the output folder holds, as PNG under the same name, the image made from the one there was at the start with the altitude of that row, the focal lengths of that camera and its target size; provided no earlier camera writes to its folder and no later one to its output folder. The new image has the size of the source or, if pixels are not kept, the size of the ground in target pixels rounded down. Every file that changes is such an image; calibrations, distance files and folders that are not output folders are never changed. It finishes if every camera in camera.yaml is complete, uses a known method and has one row at most per readable image; running it again then changes nothing if no output folder is an image folder. It warns of exactly the cameras not in camera.yaml, and announces completion exactly when it finishes.", "quantifier": "all configurations, camera systems, disks, image contents, orders of os.listdir and resampling functions", "why_tests_cant": "needs all combinations of cameras, shared folders, image names and distance rows", "anchors": ["src/correct_images/correct_images.py:call_rescale", "src/correct_images/corrections/rescale.py:rescale_camera", "src/correct_images/corrections/rescale.py:rescale_images", "src/correct_images/corrections/rescale.py:rescale"]}
{"id": "C244", "title": "correct_images rescale rescales all images of all cameras, once, or tells", "statement": "The message that all cameras are completed means that they were rescaled; a file named .jpg is a JPEG file; an image with a row is rescaled whatever the case of its extension; running the command twice is like running it once; an image with a row of its stem is rescaled; a missing calibration is found before anything is written; images of two cameras are both kept; an unknown interpolation method is refused.", "quantifier": "all configurations and disks", "why_tests_cant": "needs particular names, shared folders and missing files", "anchors": ["src/correct_images/correct_images.py:call_rescale", "src/correct_images/corrections/rescale.py:rescale_camera", "src/correct_images/corrections/rescale.py:rescale_images"]}
{"id": "C245", "title": "Camera calibration files are read back as they were written, to half a millionth", "statement": "The text that the mono calibration writes for a camera with five distortion coefficients is accepted by MonoCamera: same image size, same name, matrices of the same shapes (the coefficients as a row) with every number within 5e-7 of the one written, and numbers with six decimals exactly. The same holds for both cameras and the four extrinsic matrices of the stereo file. The matrix and coefficients of a camera that was read from its own file are in the stereo file exactly as they were read, on either side. A camera whose matrices do not have 9, 9 and 12 entries, or fewer than nine deviations, gives no file.", "quantifier": "all cameras, numbers, image sizes, names without blanks and colons beginning with a letter, dates and other metadata without quotation marks and line ends", "why_tests_cant": "needs all numbers, including ties and signs, and all sizes of the printed text", "anchors": ["src/auv_cal/camera_calibrator.py:yaml", "src/oplab/camera_models.py:MonoCamera", "src/oplab/camera_models.py:StereoCamera"]}
{"id": "C246", "title": "Every calibration that is computed can be written and read back", "statement": "A matrix that is not null is not read back as null; the file of a calibration with the rational model can be read; a camera that was read can be written by MonoCamera.to_str and read again; what StereoCamera.to_str writes can be read.", "quantifier": "all cameras and pairs", "why_tests_cant": "needs small numbers, eight coefficients or a second round of writing", "anchors": ["src/auv_cal/camera_calibrator.py:yaml", "src/oplab/camera_models.py:MonoCamera", "src/oplab/camera_models.py:StereoCamera"]}
{"id": "C247", "title": "Relative pose uncertainties are computed for exactly the images asked for", "statement": "With states and images from the same run, at least three cameras, images in the order of time and distinct names up to the two identifiers, a time of the first image read back less than a microsecond late and one of the last not early, the relative pose uncertainty run finishes, and if it covers two images or more both files have exactly the images from the first to the last identifier, in order. The subtraction file keeps names, times, poses and velocities of the states file; the first covariance is null and every other one is its own plus the first one's, entry by entry. Every row of the propagation file has pose and covariance of the filter's state at the time of an image of that name, the filter having been started from the first image's state with no uncertainty of pose and asked for the times of all images. It finishes only if both identifiers are given and the first is among the states and among the images.", "quantifier": "all states files, image lists, identifiers, filters that report every time asked for, initial covariances", "why_tests_cant": "needs all positions of the two identifiers and all lists of images", "anchors": ["src/auv_nav/process.py:process", "src/auv_nav/tools/csv_tools.py:load_states", "src/auv_nav/localisation/ekf.py:update_camera_list"]}
{"id": "C248", "title": "Relative pose uncertainties can be had for any two images of any dive", "statement": "The run works with two cameras; it writes files for a single image; a row missing in the states file does not stop it; a covariance row of another image is refused; an unknown last identifier is refused; the propagation file at the DVL has poses at the DVL; the subtraction file keeps all columns; a last time read back slightly early does not stop it.", "quantifier": "all dives and identifiers", "why_tests_cant": "needs particular numbers of cameras, identifiers or files", "anchors": ["src/auv_nav/process.py:process", "src/auv_nav/tools/csv_tools.py:load_states", "src/auv_nav/localisation/ekf.py:save_ekf_to_list"]}
{"id": "C249", "title": "Rounding keeps time stamps in order, apart and equal across sources", "statement": "In IEEE binary64: from 1970 to 2038 the epoch time of a ROS stamp, of a file name with microseconds and (with a clock offset of up to 34 years) of a log record with milliseconds is finite and within a quarter (with an offset half) of a microsecond of the time meant. Two ROS stamps are never swapped, and ROS stamps a microsecond or more apart, file names of different microseconds and log records of different milliseconds get strictly ordered times. From 2004 to 2038 a microsecond gets the very same float from a ROS stamp, a file name and date_time_to_epoch, and a millisecond the same from a log record without offset. The start time of the relative pose filter, one microsecond less, is strictly before the image and less than two microseconds before it. A Koyo millisecond text with three decimals loses at most one microsecond and gains none; whole milliseconds are exact.", "quantifier": "all stamps from 1970 (2004) to 2038, all offsets, all floats below 2^32", "why_tests_cant": "Rounding differs at every one of 10^15 microseconds; a test samples a few.", "anchors": ["src/auv_nav/sensors.py:ros_stamp_to_epoch", "src/oplab/filename_to_date.py:FilenameToDate.string_to_epoch", "src/auv_nav/tools/time_conversions.py:date_time_to_epoch", "src/auv_nav/parsers/parse_phins.py", "src/auv_nav/parsers/koyo20rov.py", "src/auv_nav/process.py:process"]}
{"id": "C250", "title": "Time stamps keep all the digits of their source", "statement": "In binary64: different ROS stamps get different epoch times; a Koyo millisecond text gives its exact number of microseconds.", "quantifier": "all stamps and texts", "why_tests_cant": "Claims about all inputs; refuted by witnesses.", "anchors": ["src/auv_nav/sensors.py:ros_stamp_to_epoch", "src/auv_nav/parsers/koyo20rov.py"]}
{"id": "C251", "title": "Interpolation, heading wrap, dead reckoning and depth layers are right up to stated rounding", "statement": "In IEEE binary64: interpolate never divides by zero, whatever the floats (NaN and infinities included). For values up to 2^200 and times at least 2^-200 apart it is exact at the earlier fix and between equal values, monotone in the query time on rising and on falling segments, and between the fixes within 2^-50 (|y1| + |y2|) + 2^-800 of the line, so also at the later fix. The heading after apply_offset is in [0, 360] for a rotated heading in [-360, 720] and equals it up to one turn and 2^-44. Dead reckoning gives one finite position per fix and position k is within (k + 4) 2^-52 of the distance travelled (plus k 2^-1072) of the exact trapezoidal sum. A point outside min_z..max_z is skipped by z_stratified_sampling; one inside and not in the topmost 2^-50 of the range gets a layer of the list, the right one up to 2^-20 of a layer.", "quantifier": "all floats in the stated ranges, all tracks of fewer than 2^50 fixes, all layer counts up to 2^20", "why_tests_cant": "There are 2^320 argument tuples and the error grows along the track.", "anchors": ["src/auv_nav/tools/interpolate.py:interpolate", "src/auv_nav/sensors.py:Orientation.apply_offset", "src/auv_nav/localisation/dead_reckoning.py:dead_reckoning", "src/auv_cal/laser_calibrator.py:LaserCalibrator.z_stratified_sampling"]}
{"id": "C252", "title": "Rounding changes nothing at the ends of a range", "statement": "In binary64: z_stratified_sampling raises nothing for a point below max_z; interpolate gives the later value at the later fix and nothing beyond it; the heading after apply_offset is below 360.", "quantifier": "all floats", "why_tests_cant": "Claims about all inputs; refuted by witnesses.", "anchors": ["src/auv_cal/laser_calibrator.py:LaserCalibrator.z_stratified_sampling", "src/auv_nav/tools/interpolate.py:interpolate", "src/auv_nav/sensors.py:Orientation.apply_offset"]}
{"id": "C253", "title": "A JAMSTEC USBL log gives one record per line of the target, with the values the line states", "statement": "parse_usbl_dump: a line of the configured target in the north-east, with any white space at its end, gives one record whose time is date_time_to_epoch of its date and time plus timeoffset_s, whose latitude and longitude are degrees plus minutes over 60, whose depth, slant range, lateral distance and bearing are those written, whose standard deviation in metres is std_factor times the slant range plus std_offset, and whose northings and eastings are the conversion of that position. The records are those of the lines in file order and each comes from a line of the target; lines of other targets change nothing, and an acfr file gets one text line per record. The parse fails exactly when some line raises, which every line of fewer than three fields does. The standard deviations in degrees are the position minus the moved position, hence negative.", "quantifier": "all files, lines, labels, settings and all int, float, time and map conversions", "why_tests_cant": "Unboundedly many texts and file lengths.", "anchors": ["src/auv_nav/parsers/parse_usbl_dump.py:parse_usbl_dump"]}
{"id": "C254", "title": "A JAMSTEC USBL log survives blank lines, fractions of seconds and the southern hemisphere", "statement": "parse_usbl_dump: a blank line or a fraction of a second in one line does not lose the other records; standard deviations of latitude and longitude are not negative; a southern latitude is minus degrees and minutes.", "quantifier": "all files", "why_tests_cant": "Claims about all inputs; refuted by witnesses.", "anchors": ["src/auv_nav/parsers/parse_usbl_dump.py:parse_usbl_dump"]}
{"id": "C255", "title": "Training and developing over whole arrays treats every pixel and channel on its own", "statement": "generate_attenuation_correction_parameters followed by the colour correction of process_image: with images of at least 100 pixels, at least 2 high and 2 wide, two or more of them and arrays of the camera's size, training succeeds and every image developed afterwards has the image's shape and, at row y, column x and channel ch, the value (corrected - mean) / max(1e-6, deviation) * contrast/100 + brightness/100 limited to 0..1, where corrected is the value times the ratio of the law fitted through the bins of (y, x, ch) at the target distance and at the pixel's distance, and mean and deviation are those of the corrected training values at (y, x, ch), a value above 0.95 counting as the mean of the earlier ones. Over the training images, where no corrected value is above 0.95, the deviation at least 1e-6 and no result clipped, the developed values have mean brightness/100 and deviation contrast/100. The number of jobs is at least 1 and less than the number of processors if that is 2 or more, and twice the free memory holds the copies of more than one job. Each image row has at most one curve figure, within half a column of the diagonal, and has one if the image is less than twice as high as wide.", "quantifier": "all image sizes, channel counts, bins, images, distances, fits, target distances, brightness and contrast", "why_tests_cant": "Index mistakes between rows, columns and channels need particular shapes and values; sizes and values are unbounded.", "anchors": ["src/correct_images/corrector.py:Corrector.generate_attenuation_correction_parameters", "src/correct_images/corrector.py:Corrector.process_image", "src/correct_images/corrections/attenuation.py:calculate_attenuation_parameters", "src/correct_images/corrections/attenuation.py:attenuation_correct", "src/correct_images/corrections/attenuation.py:calculate_correction_gains", "src/correct_images/tools/numerical.py:RunningMeanStd"]}
{"id": "C256", "title": "Training works for every image size and machine and reaches the brightness asked for", "statement": "The developed training images have the mean brightness asked for also where they are bright; images of any size can be trained on and keep their shape; the fit gets at least one job on any machine; every row has its curve figure.", "quantifier": "all images and machines", "why_tests_cant": "Claims about all inputs; refuted by witnesses.", "anchors": ["src/correct_images/corrector.py:Corrector.plot_all_attenuation_curves", "src/correct_images/corrections/attenuation.py:calculate_attenuation_parameters", "src/correct_images/tools/numerical.py:RunningMeanStd"]}
{"id": "C257", "title": "The side scan sonar file has one row per state with the values rounded to its decimals", "statement": "write_sidescan_csv and to_sidescan_row: a state with all its values gives a row of 11 blank separated fields in the order of the 11 names of the header: M150, the 8-digit UTC date and 6-digit time of the whole second of its time, latitude and longitude within half a millionth of a degree, heading, roll, pitch, altitude, depth and surge speed within half a thousandth; a state without latitude stands at 0, 0. The file is the header and the rows of the states in order, up to the first state that cannot be written; there is no file without the flag or without states. The particle filter's trajectory at the vehicle's centre is the one at the DVL moved by the offset, with latitude and longitude of the moved position and as many cells per row as its header has names.", "quantifier": "all states, times up to the year 9999, lists and conversions", "why_tests_cant": "Unboundedly many values; rounding at the last decimal and calendar dates need particular ones.", "anchors": ["src/auv_nav/sensors.py:SyncedOrientationBodyVelocity.to_sidescan_row", "src/auv_nav/sensors.py:SyncedOrientationBodyVelocity.get_sidescan_header", "src/auv_nav/tools/csv_tools.py:write_sidescan_csv", "src/auv_nav/process.py:process"]}
{"id": "C258", "title": "The side scan sonar file writes every state and known position, and the particle filter's files have their columns", "statement": "A known longitude is written and a missing one stands as 0; states at different times have different rows; a state that cannot be written does not lose those after it; the particle filter's trajectory at the DVL has a latitude, a longitude and one cell per column.", "quantifier": "all states", "why_tests_cant": "Claims about all inputs; refuted by witnesses.", "anchors": ["src/auv_nav/sensors.py:SyncedOrientationBodyVelocity.to_sidescan_row", "src/auv_nav/tools/csv_tools.py:write_sidescan_csv", "src/auv_nav/process.py:process"]}
{"id": "C259", "title": "The combined raw file of oplab_to_acfr states every measurement in its own line", "statement": "For a nav_standard.json that begins with the origin and is sorted by time: every orientation, depth and USBL fix gives exactly one line of its kind, in order, whose words are the labels with the values of that record; every pair of stereo images gives two VIS lines, left first, except names with xxx; an RDI line gives a velocity whose DVL time is within a second of its own, with the latest altitude and the latest orientation before it, and every such velocity that has both since the last one is written; the horizontal range written completes the depth to the slant range when that is larger than the depth, and is -1 (or 0 at exactly minus the range) otherwise; the bearing is that of the target from the mission's origin, between -180 and 180; nothing else is written; later records only add lines at the end.", "quantifier": "all navigation files, all values, all number formats without white space", "why_tests_cant": "quantifies over all sequences of measurements and all values in them", "anchors": ["src/auv_nav/convert.py:oplab_to_acfr", "src/auv_nav/parsers/acfr_combined_raw.py:AcfrCombinedRawWriter", "src/auv_nav/sensors.py:BodyVelocity", "src/auv_nav/sensors.py:Orientation", "src/auv_nav/sensors.py:Depth", "src/auv_nav/sensors.py:Usbl", "src/auv_nav/sensors.py:Camera"]}
{"id": "C260", "title": "The combined raw file is right for every fix, every image and every clock", "statement": "The horizontal range of a target straight below the ship is 0; the bearing is that from the ship to the target; every value is a number; each image is written once, and only images that exist; image names are one word; the lines are in order of time.", "quantifier": "all navigation files", "why_tests_cant": "fails only for particular geometries, camera set-ups, names and clocks", "anchors": ["src/auv_nav/convert.py:oplab_to_acfr", "src/auv_nav/sensors.py:Usbl", "src/auv_nav/sensors.py:Camera", "src/auv_nav/sensors.py:Depth"]}
{"id": "C261", "title": "BioCam's image files become stereo pairs and laser records with the times in their names", "statement": "If no path has .txt or ._ in it and .jpg only ends names, and all image names are stamped: every JPEG file in the second camera's laser folder or below it is one laser record, and nothing else is; a pair is an image of the first camera (strobe TIFF, laser JPEG at any depth, laser TIFF) and a TIFF image of the second, less than 50 ms apart, the second being a nearest one, and every image of the first camera with one of the second that near is in a pair; the two times of each image are those written in its name, for fractions of three or six digits, in the mission's time zone and with its offset; parsing only fails if the first camera has images and the second none. With two cameras of which only the second records the laser, and the format biocam, the laser images are put at the second camera's position under its name; with another format and three cameras at the third's.", "quantifier": "all directory trees, names and dates, all zones within a day", "why_tests_cant": "quantifies over all sets of files and all names", "anchors": ["src/auv_nav/parsers/parse_biocam_images.py:parse_biocam_images", "src/auv_nav/parsers/parse_biocam_images.py:biocam_timestamp_from_filename", "src/auv_nav/parsers/parse_biocam_images.py:time_from_string", "src/auv_nav/process.py:process"]}
{"id": "C262", "title": "BioCam's laser images are recognised whichever camera takes them and wherever they are", "statement": "The laser images of the camera that records the laser are laser records, put at that camera's position under its name, for both BioCam formats; folder names do not matter; both cameras' names are treated alike; paired images are taken in the same light; every stamped name gives the time written in it; a name of the short form gives its time; one odd name does not lose the dive.", "quantifier": "all camera set-ups, directory trees and names", "why_tests_cant": "fails only for particular set-ups and names", "anchors": ["src/auv_nav/parsers/parse_biocam_images.py:parse_biocam_images", "src/auv_nav/parsers/parse_biocam_images.py:biocam_timestamp_from_filename", "src/auv_nav/parsers/parse_biocam_images.py:time_from_string", "src/auv_nav/process.py:process"]}
{"id": "C263", "title": "The folder script brings images of one size to brightness 25 and contrast 7", "statement": "The sample for the statistics has at most as many images as fit in 200 Gb, all from the folder, at least one, and all of them if they fit; its file is within 200 Gb. Of images with even sides the averages of two by two pixels are loaded, over 256. The small mean and deviation are the mean and the root of the variance of the loaded values. At full size they stay between the least and the greatest small value and are linearly interpolated at the place with row and column exchanged. Where mean and deviation are uniform a pixel becomes the whole part of 256 times (level/256 - mean)/deviation*0.07 + 0.25, or 0 if that is negative, as long as it is below 1; and everywhere the darker of two images at a pixel does not come out brighter. The script ends without an exception exactly if there are images, all of three channels and the first one's size, at least two by two, and small enough that one fits; then it writes one for each.", "quantifier": "all folders, images and sizes, any random sample", "why_tests_cant": "quantifies over all images and samples, including those too large to keep", "anchors": ["src/scripts/pixel_stats_folder.py:pixel_stat", "src/scripts/pixel_stats_folder.py:mean_std_array", "src/scripts/pixel_stats_folder.py:memmap_loader", "src/scripts/pixel_stats_folder.py:correct_image"]}
{"id": "C264", "title": "The folder script corrects every folder of images by each pixel's own statistics", "statement": "The brighter an image is at a pixel the brighter it comes out; a pixel is corrected by the mean and deviation of the images at that pixel; grey images, images with a fourth channel and images of several sizes are corrected; every pixel gets a level.", "quantifier": "all folders, images and sizes", "why_tests_cant": "fails only for particular images: very bright ones, images whose mean is not symmetric, equal images", "anchors": ["src/scripts/pixel_stats_folder.py:pixel_stat", "src/scripts/pixel_stats_folder.py:correct_image"]}
{"id": "C265", "title": "The laser plane is fitted within stated bounds and the point clouds are written as they are", "statement": "The inliers of Plane.fit are exactly the points nearer to the returned plane than the threshold times n, the length of the normal that least_squares found. At a least cost within the bounds one coordinate of that normal is 1 or -1 unless all points lie on the plane, so n is between 1 and the root of 3 (and 1 only for a normal along an axis): no point within the threshold is left out and none beyond the root of 3 times the threshold is taken. The plane written has first coefficient 1 and the points of the returned one; the point written is the mean of the inliers and is as near to the plane as they are; the least distance between points of an uncertainty plane is twice the root mean square distance of the inliers from their mean in y and z. The fit raises exactly without inliers or, while planes are wanted, with less than three. Detections of the two images of a pair stay together, for both lasers. A saved cloud reads, line by line and word by word, as a PLY header with the number of points followed by the points in order to five decimals.", "quantifier": "all clouds, thresholds, solutions and detections", "why_tests_cant": "quantifies over all point clouds and all minima of the cost", "anchors": ["src/auv_cal/plane_fitting.py:fit", "src/auv_cal/plane_fitting.py:residuals", "src/auv_cal/laser_calibrator.py:fit_and_save", "src/auv_cal/laser_calibrator.py:save_cloud", "src/auv_cal/laser_calibrator.py:cal"]}
{"id": "C266", "title": "The laser calibration keeps to its configured thresholds and sizes", "statement": "Inliers are nearer than min_distance_threshold to the fitted plane; the mean point written is on the plane written; every cloud gets a plane; at most max_cloud_size points are fitted; header lines of a PLY file start with their keywords; different clouds give different files.", "quantifier": "all clouds and configurations", "why_tests_cant": "fails by an amount that depends on the direction of the plane, or only for small clouds", "anchors": ["src/auv_cal/plane_fitting.py:fit", "src/auv_cal/laser_calibrator.py:fit_and_save", "src/auv_cal/laser_calibrator.py:save_cloud", "src/auv_cal/laser_calibrator.py:cal"]}
{"id": "C267", "title": "Euler angles, matrices and quaternions of the transformations module describe the same rotations", "statement": "For each of the 24 axis sequences (static or rotating, any three letters with neighbours different) euler_matrix is the product of the three turns about those axes, in the order the sequence says; no other name is accepted, and the tuple of numbers of a sequence gives the same matrix as its name. Every matrix it makes is a rotation. euler_from_matrix of any rotation matrix gives angles within the range of arctan2 from which euler_matrix makes that matrix again, up to the documented tolerance when the middle angle is singular and exactly otherwise; angles obtained from two sequences of one rotation describe the same rotation. quaternion_from_euler has norm 1 and quaternion_matrix of it is euler_matrix of the same angles. quaternion_from_matrix of a rotation has norm 1 and gives the matrix back; of the matrix of a quaternion, that quaternion normalised or its opposite. quaternion_multiply turns first by the second factor, is associative with the norms multiplying, the conjugate undoes the rotation, random_quaternion has norm 1, quaternion_about_axis is the turn of Rodrigues' formula, and quaternion_slerp goes at constant speed along the great arc between its normalised ends and returns them at 0 and 1.", "quantifier": "all angles, axis sequences, rotation matrices and quaternions", "why_tests_cant": "24 sequences over all angles including the singular ones; identities over the reals", "anchors": ["src/auv_nav/tools/transformations.py:euler_matrix", "src/auv_nav/tools/transformations.py:euler_from_matrix", "src/auv_nav/tools/transformations.py:euler_from_quaternion", "src/auv_nav/tools/transformations.py:quaternion_from_euler", "src/auv_nav/tools/transformations.py:quaternion_about_axis", "src/auv_nav/tools/transformations.py:quaternion_matrix", "src/auv_nav/tools/transformations.py:quaternion_from_matrix", "src/auv_nav/tools/transformations.py:quaternion_multiply", "src/auv_nav/tools/transformations.py:quaternion_conjugate", "src/auv_nav/tools/transformations.py:quaternion_slerp", "src/auv_nav/tools/transformations.py:random_quaternion"]}
{"id": "C268", "title": "Interpolated quaternions are unit quaternions and Euler angles come back as given", "statement": "quaternion_slerp of unit quaternions gives unit quaternions for every spin and approaches its end; every axis name that one function of the module accepts the others accept; angles in the range of a z,y,z sequence come back from the matrix they make.", "quantifier": "all quaternions, spins, axis names and angles", "why_tests_cant": "fails only for odd spins, quaternions more than half a turn apart, upper-case names and sequences with a repeated axis", "anchors": ["src/auv_nav/tools/transformations.py:quaternion_slerp", "src/auv_nav/tools/transformations.py:euler_matrix", "src/auv_nav/tools/transformations.py:euler_from_matrix"]}
{"id": "C269", "title": "Matrices for turning, mirroring, scaling and projecting do what their arguments say", "statement": "rotation_matrix turns every point about the line through the point along the direction by the angle, keeps that line and all distances, turns about one line add up and a whole turn does nothing; the angle rotation_from_matrix computes makes the matrix again with the kept direction and point. reflection_matrix moves every point by twice its height above the plane against the normal; twice is nothing, the plane and distances stay. scale_matrix moves everything to the given multiple of its distance from the origin point, or of its height along the direction only, the inverse factor undoes it and the factor -1 along a direction is the reflection. projection_matrix moves points along the direction, or the normal, onto the plane, uniquely, leaves points of the plane, and without a direction no point of the plane is nearer; with a perspective point the result is where the line from it through the point meets the plane; the pseudo one is the same place, raised by a height that is 0 exactly for points of the plane. concatenate_matrices applies the last of its matrices first. is_same_transform accepts a matrix and all its multiples, and what it accepts agrees entry by entry within the tolerances.", "quantifier": "all points, directions, planes, factors, angles and lists of matrices", "why_tests_cant": "geometric identities over all reals", "anchors": ["src/auv_nav/tools/transformations.py:rotation_matrix", "src/auv_nav/tools/transformations.py:rotation_from_matrix", "src/auv_nav/tools/transformations.py:reflection_matrix", "src/auv_nav/tools/transformations.py:scale_matrix", "src/auv_nav/tools/transformations.py:projection_matrix", "src/auv_nav/tools/transformations.py:translation_matrix", "src/auv_nav/tools/transformations.py:concatenate_matrices", "src/auv_nav/tools/transformations.py:is_same_transform"]}
{"id": "C270", "title": "is_same_transform tells whether two matrices perform the same transformation", "statement": "Translations that it calls the same differ by less than a metre; it is symmetric in its arguments and transitive.", "quantifier": "all pairs and triples of matrices", "why_tests_cant": "needs translations of many kilometres in a narrow band around the relative tolerance", "anchors": ["src/auv_nav/tools/transformations.py:is_same_transform"]}
{"id": "C271", "title": "The printed folder tree can be read back, and removing a folder removes it alone", "statement": "show_tree of a folder with no more folders inside than max_depth prints the drawing of the tree down to max_depth: each folder with a slash, followed by its contents in alphabetical order regardless of case, joined by branches and beams that tell which comes last. Two different trees (with names without slashes) have different drawings. The order in which the folders are read makes no difference when no two names of a folder differ in case only. With any number of folders, the folder and its immediate contents are always printed, and everything printed is part of that drawing, in its order. remove_directory of a folder without links to folders, on or below the path, finishes and leaves exactly what was not in that folder; links to files are removed and not the files.", "quantifier": "all folder trees, depths and states of the disk", "why_tests_cant": "quantifies over all trees; the only test prints the tree of the working directory", "anchors": ["src/auv_nav/tools/displayable_path.py:make_tree", "src/auv_nav/tools/displayable_path.py:show_tree", "src/auv_nav/tools/displayable_path.py:displayable", "src/oplab/folder_structure.py:remove_directory"]}
{"id": "C272", "title": "Everything less deep than max_depth is printed and nothing outside a folder is removed", "statement": "show_tree prints every entry less deep than max_depth and opens no folder deeper than that; its output depends on the tree only; remove_directory touches nothing outside the folder.", "quantifier": "all folder trees, depths and states of the disk", "why_tests_cant": "fails with several folders side by side, chains of last folders, names that differ in case, or a link to a folder", "anchors": ["src/auv_nav/tools/displayable_path.py:make_tree", "src/auv_nav/tools/displayable_path.py:show_tree", "src/oplab/folder_structure.py:remove_directory"]}
{"id": "C273", "title": "The mean image of an altitude bin is the mean or the median of its images, pixel by pixel", "statement": "compute_distance_bin with smoothing 'mean' or 'median', images of the camera's size (one or more channels) and at least ten of them in the bin: create_memmap holds them in order; the image written has the camera's shape and at every row, column and channel the mean, or a median, of the values of the images used (all for the mean, at most max_bin_size of them for the median); the median does not depend on the order of the images and lies between any bounds that hold more than half of the values; the distance written is the mean of the bin's distances (the fallback if that is not positive), or with depth maps the mean of their depths where none is zero. Fewer than ten images write nothing. Bins made so can always be trained on.", "quantifier": "all camera sizes and channel counts, all images, bins, orders of images and random samples", "why_tests_cant": "unbounded number and size of images and of random choices", "anchors": ["src/correct_images/corrector.py:compute_distance_bin", "src/correct_images/tools/memmap.py:create_memmap", "src/correct_images/tools/memmap.py:memmap_loader", "src/correct_images/tools/numerical.py:median_array", "src/correct_images/tools/numerical.py:running_mean_std"]}
{"id": "C274", "title": "Every smoothing of the configuration gives a mean image for every camera", "statement": "compute_distance_bin with smoothing 'mean_trimmed' gives an image for cameras of one and of three channels; an entry of the list without an image, or images of another number of channels, do not stop the training.", "quantifier": "all camera sizes and channel counts, all images, bins, orders of images and random samples", "why_tests_cant": "unbounded number and size of images and of random choices", "anchors": ["src/correct_images/corrector.py:compute_distance_bin", "src/correct_images/tools/memmap.py:memmap_loader", "src/correct_images/tools/numerical.py:image_mean_std_trimmed", "src/correct_images/tools/numerical.py:calc_mean_and_std_trimmed"]}
{"id": "C275", "title": "Every image of a ROS bag that auv_nav lists leads correct_images back to that image", "statement": "rosbag_topic_worker with Camera lists one record for each message of the topic in the bags that open, in their order, timed by its stamp less the offset. For bags that all open, the loader given a time returns the first message of the topic stamped within 5 ms of it and recorded within half a second of it, each value divided by 2 to the power of the depth, and None exactly if there is none. So with images 5 ms or more apart, each recorded within half a second of its stamp, and the offset that auv_nav used, every record gives back its image. Loader is the one for bags exactly for the extension 'bag' and refuses to load without a depth. Images of other files are divided by 2 to the power of the camera's depth, or cut to that depth if they are deeper.", "quantifier": "all bags, topics, messages, stamps, offsets, depths and pixel values", "why_tests_cant": "unbounded number of bags and messages, real times", "anchors": ["src/correct_images/loaders/rosbag.py:loader", "src/correct_images/loaders/loader.py:Loader", "src/auv_nav/sensors.py:Camera", "src/auv_nav/parsers/parse_rosbag.py:rosbag_topic_worker"]}
{"id": "C276", "title": "correct_images processes the images of ROS bags of any mission that auv_nav parses", "statement": "Corrector sets up the loader for extension 'bag' with the offset that auv_nav used; every image listed is found, whatever the interval between images, the delay of recording, the format and the state of the other bags.", "quantifier": "all missions, time zones, bags, topics, messages and stamps", "why_tests_cant": "unbounded number of bags and messages, real times", "anchors": ["src/correct_images/corrector.py:Corrector", "src/correct_images/loaders/rosbag.py:loader", "src/auv_nav/parsers/parse_rosbag.py:rosbag_topic_worker", "src/oplab/mission.py:TimeZoneEntry"]}
{"id": "C277", "title": "A stereo camera's projection and triangulation undo each other, and the virtual images show the laser line where the cameras see it", "statement": "project_point gives each camera's pinhole projection of a point exactly if it is inside the image; for a rectified pair triangulate_point of the two pixels is the point. Without rotation and distortion undistort_and_rectify_point keeps a pixel. The virtual images of a rectified pair with images of one size, for a line not exactly on a row: each column nearest to a point seen by both cameras has two rows whose mean weighed by their values is the height of the line to 1/254 of a pixel, every other column is empty, both are made if the line is above the last row, and findLaserInImage finds the line in each such column to 1/254 of a pixel. The points are on a plane y + d = 0; the altitudes are evenly spaced by the step if it divides their range. The line of an altitude has three points for two columns, evenly from three quarters of the altitude to the left to as far to the right.", "quantifier": "all rectified pairs, points, image sizes, planes, altitudes and sampled points", "why_tests_cant": "real-valued geometry, images of any size and number of points", "anchors": ["src/oplab/camera_models.py:StereoCamera", "src/oplab/camera_models.py:MonoCamera", "src/scripts/laser_plane_virtual_image_generator.py:drawGaussian", "src/auv_cal/laser_calibrator.py:findLaserInImage"]}
{"id": "C278", "title": "Every laser plane of the configuration is drawn at every altitude asked for", "statement": "The virtual images show the configured plane wherever it is in front of the cameras and inside the images, at altitudes one step apart; only points in front of a camera are given a pixel; undistort_and_rectify_point gives the pixel at which the rectified camera sees the point.", "quantifier": "all rectified pairs, points, image sizes, planes, altitudes and sampled points", "why_tests_cant": "real-valued geometry, images of any size and number of points", "anchors": ["src/oplab/camera_models.py:StereoCamera", "src/oplab/camera_models.py:MonoCamera", "src/scripts/laser_plane_virtual_image_generator.py:drawGaussian"]}
{"id": "C279", "title": "ALR files are corrected to BioCam's clock as whole files", "statement": "adjust_alr_to_biocam_time.py reads exactly the polls of the logs, in order and across several logs, from the second, sixth and eighth fields of the lines with 'poll_time:'. With at least two polls in order, one csv file after each -a, no output that is also an input, and -f or no existing output, every file gets a copy named with _corrected before the extension. The copy has the same columns and rows with corrected_timestamp in front, on the line of the polls around the row's time. However the script ends it writes nothing but those outputs, without -f it changes no existing file, and a missing log or a name not ending in .csv stops it before anything is written.", "quantifier": "all log texts, polls, lists of files, tables, columns and divisions per second", "why_tests_cant": "Logs, file names and tables are unbounded; that nothing else changes however the script ends is about all runs.", "anchors": ["src/scripts/adjust_alr_to_biocam_time.py:populate_output_file_path", "src/scripts/adjust_alr_to_biocam_time.py:analyse_time_differences", "src/scripts/adjust_alr_to_biocam_time.py:correct_timestamps"]}
{"id": "C280", "title": "Every ALR file given to the clock correction gets its copy beside it", "statement": "Every file named after -a is corrected, its copy is in the same folder, a table without rows gives a table without rows, and an incomplete poll in the log is ignored.", "quantifier": "all lists of files and logs", "why_tests_cant": "A universal claim over names, tables and logs; false with witnesses: only the first file of each -a is used, every '.csv' of the path is replaced, an empty table or a cut line stops the script with later files uncorrected.", "anchors": ["src/scripts/adjust_alr_to_biocam_time.py:populate_output_file_path", "src/scripts/adjust_alr_to_biocam_time.py:correct_timestamps"]}
{"id": "C281", "title": "Attitudes read from ACFR stereo pose files are those of the stereo frame turned by a right angle", "statement": "For a stereo pose turned about at most one of its image axes, AcfrStereoPoseParser.get_cameras gives roll, pitch and yaw whose rotation (body_to_inertial) takes every vehicle vector where the file's rotations about X, Y and Z take it, seen by a camera looking down with the top of the image aft. For any pose the squared distance between the two is at most 2((sx sy)^2 + (sx(1-cy))^2 + (sy(1-cx))^2) of the squared length, and the viewing direction is off by exactly (sx(1-cy))^2 + (sy(1-cx))^2. AcfrVehiclePoseParser.get_dead_reckoning keeps the attitude of level vehicles, and tilts others a quarter turn round.", "quantifier": "all poses (angles rational numbers of degrees) and all vectors", "why_tests_cant": "Identities and bounds of rotations for all angles; tests compare some numbers of one file with themselves.", "anchors": ["src/auv_nav/parsers/acfr_stereo_pose.py:get_cameras", "src/auv_nav/parsers/acfr_vehicle_pose.py:get_dead_reckoning", "src/auv_nav/tools/body_to_inertial.py:body_to_inertial"]}
{"id": "C282", "title": "ACFR pose files keep the attitude", "statement": "The roll, pitch and yaw read from ACFR stereo and vehicle pose files describe the attitude that the file's Euler angles describe.", "quantifier": "all poses", "why_tests_cant": "A universal claim over attitudes; false with witnesses: a stereo frame turned about both image axes, and a vehicle that rolls, which is read as one that pitches.", "anchors": ["src/auv_nav/parsers/acfr_stereo_pose.py:get_cameras", "src/auv_nav/parsers/acfr_vehicle_pose.py:get_dead_reckoning"]}
{"id": "C283", "title": "Missions of the old format load like their version 1 counterparts", "statement": "A mission.yaml of version below 1 (or without one) whose image format is seaxerocks_3 loads its images exactly as the version 1 file that lists the cameras fore, aft and laser on the frames camera1 to camera3 with the joined paths; with acfr_standard, as the one that lists the two named cameras on the common path; either loads if and only if the other does. The payloads loaded are exactly those of the file in its order, each with a path, a format and numeric times and known to vehicle.yaml. A file of version 1 without payloads loads as before. Whatever the version, every camera and payload of a loaded mission is one that vehicle.yaml has.", "quantifier": "all image sections, file texts, vehicle frames and payload mappings", "why_tests_cant": "Equality of two loaders over all files; the tests load a handful of files.", "anchors": ["src/oplab/mission.py:ImageEntry", "src/oplab/mission.py:PayloadEntry", "src/oplab/mission.py:Mission"]}
{"id": "C284", "title": "Every mission of the old format loads", "statement": "An old mission loads with any image format, puts the cameras' folders inside the file path, follows the origins it gives, leaves out payloads the vehicle does not have, and the version may be written as text.", "quantifier": "all old mission files", "why_tests_cant": "A universal claim over files; false with witnesses: another format never loads, a path without a final slash becomes part of the folder's name, origins are ignored, an unknown payload stops the mission, and so does a quoted version.", "anchors": ["src/oplab/mission.py:ImageEntry", "src/oplab/mission.py:Mission"]}
{"id": "C285", "title": "The overview of a parsed dive shows every record once", "statement": "When the overview of nav_standard.json is shown, its rows are exactly the records (null and origin entries left out) by category in order of first appearance and, within one, by frame body, inertial, other, each in file order; every record is in one row, once; the duration runs from the second entry to the last. A row's rate is one over the first of its first nine time differences that is at least 2 ms (of fewer than ten, failing that, the last one), or none. Each point is drawn within half a microsecond of its time unless its fraction rounds up to a full second. It raises exactly when the second or last entry is missing or null or a category has two records in neither frame, and exits exactly when otherwise some row has eleven or more records of which the first ten are less than 2 ms apart.", "quantifier": "all contents of nav_standard.json", "why_tests_cant": "A claim about every file, including the exact conditions of its two failures; the tests do not look at the overview.", "anchors": ["src/auv_nav/plot/plot_parse_data.py:plot_parse_data", "src/auv_nav/plot/plot_parse_data.py:data2trace", "src/auv_nav/plot/plot_parse_data.py:print_lines"]}
{"id": "C286", "title": "Every parsed dive gets its overview", "statement": "Parsing always ends with the overview shown, each point at its time and each rate positive.", "quantifier": "all contents of nav_standard.json", "why_tests_cant": "A universal claim over files; false with witnesses: samples at 1 kHz end the whole program silently with status 0, two records in a third frame or a file with only the origin raise, a time just before a full second is drawn a second early, and two records out of order give a negative rate.", "anchors": ["src/auv_nav/plot/plot_parse_data.py:plot_parse_data", "src/auv_nav/plot/plot_parse_data.py:data2trace"]}
{"id": "C287", "title": "Composing and decomposing transformation matrices undo each other", "statement": "Composing the parts decompose_matrix returns gives back the matrix divided by its last corner, except that a last row whose entries are all at most 2^-50 becomes zero. Decomposing a matrix composed without perspective returns the same scale, shear, angles and translation whenever the scales are all positive or all negative, the pitch is under a right angle and roll and yaw are under half a turn. Decomposing is refused exactly when the last corner is under 2^-50 or the matrix flattens space; scales are always all positive or, of a mirroring matrix, all negative. The composed matrix scales, shears, turns about x, y and z, and moves. shear_matrix moves each point along the direction by the tangent of the angle times its height over the plane, keeps volumes for orthogonal vectors, and is refused exactly when the unit vectors' product is over 1e-6.", "quantifier": "all matrices; all scales, shears, angles, translations; all shear angles, directions, points and normals", "why_tests_cant": "Claims over all real matrices, including the exact domain of the round trip; the doctests use random samples.", "anchors": ["src/auv_nav/tools/transformations.py:decompose_matrix", "src/auv_nav/tools/transformations.py:compose_matrix", "src/auv_nav/tools/transformations.py:shear_matrix"]}
{"id": "C288", "title": "decompose_matrix returns what was composed and shears keep volumes", "statement": "decompose_matrix returns the scale and angles the matrix was composed of, composing its parts always gives the matrix again, and every shear keeps volumes.", "quantifier": "all parts and matrices", "why_tests_cant": "A universal claim over the reals; false with witnesses: one mirrored axis, a pitch over a right angle, a zero scale, a last row of 2^-50 and a shear whose direction and normal are let through though not orthogonal.", "anchors": ["src/auv_nav/tools/transformations.py:decompose_matrix", "src/auv_nav/tools/transformations.py:compose_matrix", "src/auv_nav/tools/transformations.py:shear_matrix"]}
{"id": "C289", "title": "Images numbered in a timestamp file get the time of their row", "statement": "Of a timestamp file whose columns and rows read as camera.yaml says, an image whose name carries the number of exactly one row gets the time written in that row's date columns, joined in the order of camera.yaml; a number in no row is an error. Cells under names camera.yaml does not mention do not matter. An empty file or columns without a number column leave no table, and then every numbered image ends the program; a file of only a header is an error. If the first row has one more field than the header, the last name of the header is read with its newline and every other name is found.", "quantifier": "all headers with distinct names, all rows, all column lists of camera.yaml, all image names and formats", "why_tests_cant": "The repository's one test reads one file of AE2000; the claim is over all tables, column orders and image numbers.", "anchors": ["src/oplab/filename_to_date.py:read_timestamp_file", "src/oplab/filename_to_date.py:string_to_epoch"]}
{"id": "C290", "title": "Every row of a timestamp file times its image", "statement": "Every image listed in a timestamp file gets the time its row says, whatever the padding, the number of commas, missing cells, repeated numbers or the width of the number column.", "quantifier": "all timestamp files", "why_tests_cant": "A universal claim over files; false with witnesses: an unpadded time of day silently read as another, a last name lost to the newline when rows end with a comma, a number in two rows, a number column of two letters, one empty date cell.", "anchors": ["src/oplab/filename_to_date.py:read_timestamp_file", "src/oplab/filename_to_date.py:string_to_epoch"]}
{"id": "C291", "title": "Images with a pixel over the threshold are listed", "statement": "If every .jpg and .png file of a folder is a picture with channels, the two brightness scripts list exactly those with a pixel whose channel mean is over the threshold, .jpg files first, each in the folder's order. No list is written exactly when one of those files has no pixel with channels. Whatever is listed is also listed under a lower threshold.", "quantifier": "all folders, pictures, thresholds and paths without commas, quotes or line ends", "why_tests_cant": "The scripts have no tests; the claim is over all folders and pictures.", "anchors": ["src/scripts/compute_max_brightness.py", "src/scripts/find_images_with_artefacts.py"]}
{"id": "C292", "title": "Every bright picture of a folder is listed by its path", "statement": "A picture with a white pixel is listed by its path, whatever its opacity, the case of its extension, the other files and the characters of its name.", "quantifier": "all folders and pictures", "why_tests_cant": "A universal claim; false with witnesses: a transparent white pixel, a .JPG file, a picture without colours beside it, a comma in the name.", "anchors": ["src/scripts/compute_max_brightness.py", "src/scripts/find_images_with_artefacts.py"]}
{"id": "C293", "title": "Debayering a folder gives each image its .png file and changes no other", "statement": "In whatever order the images found with one extension are worked on, each gives <stem>.png in the output folder, converted by the OpenCV code whose letters are the pattern's fourth and third; no other file changes. Patterns may be all lower or all upper case. Of a monochrome pattern nothing is written; any other pattern, or an image that cannot be converted, is an error.", "quantifier": "all folders, patterns, extensions without a point, and orders of the images", "why_tests_cant": "The script has no tests; the claim is over all parallel orders and file systems.", "anchors": ["src/scripts/debayer_folder.py:debayer"]}
{"id": "C294", "title": "Debayering always leaves the input and one output per image", "statement": "debayer_folder writes a .png for each image of any camera, ignores the pattern's case, keeps the images it reads, and gives the same files in any order.", "quantifier": "all folders, patterns and orders", "why_tests_cant": "A universal claim; false with witnesses: a monochrome camera, the pattern Rggb, one folder for input and output, the names .png and .png.png.", "anchors": ["src/scripts/debayer_folder.py:debayer"]}
{"id": "C295", "title": "Only edges inside the board make a calibration view sharp", "statement": "If all four outer corners of the board are in the image, _is_sharp answers exactly when the rectangle around them (cut to whole pixels) has a pixel. Pixels outside that rectangle and brightness added to a channel do not change the answer; more contrast, or a negative, never makes a sharp view blurred; a rectangle of one colour is not sharp. A board that fills the image is as sharp in the mirrored image and in the image turned upside down.", "quantifier": "all images, corners, added brightnesses and contrasts", "why_tests_cant": "No test covers it; the claims compare all pairs of images.", "anchors": ["src/auv_cal/camera_calibrator.py:_is_sharp"]}
{"id": "C296", "title": "Sharpness of a view is about focus alone", "statement": "_is_sharp answers for every detected board, independently of contrast, and never says sharp of a picture without edges.", "quantifier": "all images and corners", "why_tests_cant": "A universal claim; false with witnesses: a corner one pixel outside the image (an error), an edge of a tenth of the contrast, an even slope of brightness.", "anchors": ["src/auv_cal/camera_calibrator.py:_is_sharp"]}
{"id": "C297", "title": "Payload samples say what their CSV rows say", "statement": "A payload's CSV file with a corrected_timestamp column of numbers gives one sample per row, in order, with that time plus the payload's offset and, under every name but epoch_timestamp and in the file's order, the cell's number (in a column of numbers) or else its words. Integers stay integers if some column has words or all columns are integers. Without that column, or with words in it, it is an error.", "quantifier": "all tables with distinct names and full rows, all offsets and column settings", "why_tests_cant": "No test reads a payload; the claim is over all tables and mixes of column types.", "anchors": ["src/auv_nav/parsers/generic_csv_payload_parser.py:generic_csv_payload_parser"]}
{"id": "C298", "title": "Payload samples keep every cell and follow mission.yaml's columns", "statement": "The samples keep every column and integer of the file, take the time from the columns named in mission.yaml, and their data tell the sample's time.", "quantifier": "all payload files", "why_tests_cant": "A universal claim; false with witnesses: integers beside floats become floats, the columns setting is ignored, epoch_timestamp is dropped, the offset is not in the data.", "anchors": ["src/auv_nav/parsers/generic_csv_payload_parser.py:generic_csv_payload_parser"]}
{"id": "C299", "title": "RDI lines from a PHINS log use each message once", "statement": "Parsing a PHINS log for velocities in the ACFR format splits the log into consecutive parts, one for each RDI line. Each RDI line gives the latest velocity of its part with that message's own time, and the latest altitude, sound velocity, heading, roll and pitch of its part. A log of cycles in which heading precedes attitude and velocity precedes altitude gives one RDI line per cycle with that cycle's numbers, whatever else is in between. A log whose hours and minutes are digits is parsed to the end.", "quantifier": "all sequences of PHINS messages with headings from 0 to 360 degrees; all dates, zones, clock offsets and heading offsets", "why_tests_cant": "Messages may arrive in any order, repeat or be broken, and the parser keeps state between lines.", "anchors": ["src/auv_nav/parsers/parse_phins.py:PhinsParser.process_line", "src/auv_nav/parsers/parse_phins.py:PhinsParser.build_rdi_acfr", "src/auv_nav/sensors.py:Orientation.from_phins", "src/auv_nav/sensors.py:Altitude.from_phins"]}
{"id": "C300", "title": "RDI lines from a PHINS log hold one cycle in every order", "statement": "In any order of the messages of a cycle, the numbers of an RDI line made from a PHINS log are of one cycle, with roll and pitch turned by the heading offset.", "quantifier": "all sequences of PHINS messages", "why_tests_cant": "The order of the messages is set up in the instrument and is fixed in any one recording.", "anchors": ["src/auv_nav/parsers/parse_phins.py:PhinsParser.process_line", "src/auv_nav/sensors.py:Orientation.apply_offset"]}
{"id": "C301", "title": "The size of a camera's images is that of its first image", "statement": "For tif, jpg and png images the corrector takes rows, columns and channels (one if grey) from the first image of the list, which is the size of all images if they are of one size. For bags it takes them from the first message with the camera's topic in the first bag that has such a message. The topic is that of the first camera of the mission with the camera's name and a topic, or else the camera's own. Raw images are always taken for 1024 rows of 1280 grey pixels.", "quantifier": "all lists of image files and bags, all image shapes, all missions", "why_tests_cant": "Bags without messages of the topic may come first, and the mission may list any cameras.", "anchors": ["src/oplab/camera_system.py:CameraEntry.image_properties", "src/oplab/camera_system.py:get_image_size", "src/oplab/camera_system.py:rosbag_image_loader", "src/correct_images/corrector.py:Corrector"]}
{"id": "C302", "title": "The size of every image of every camera is known", "statement": "Whatever the extension, the corrector knows the size of all images of a camera, and says so if there are none.", "quantifier": "all cameras and image lists", "why_tests_cant": "Extensions, raw formats and mixtures of sizes depend on the camera in use.", "anchors": ["src/oplab/camera_system.py:CameraEntry.image_properties", "src/correct_images/corrector.py:Corrector"]}
{"id": "C303", "title": "The pictures of the laser detections show the detections", "statement": "If none of the pictures exists and no two images share a file, then after calibrating a laser every image pair has its two pictures. In each, the pixel containing a detection and its neighbours have the colour of the laser line, the bottom line over the top line, and every other pixel of an 8 bit image shows the image in green. Pictures of other images, and pictures of pairs that have both, are left as they are.", "quantifier": "all images, detections, lists of pairs and files already there; all shapes of the mark", "why_tests_cant": "Marks overlap and files of earlier runs may be there for any of the pairs.", "anchors": ["src/auv_cal/laser_calibrator.py:draw_laser"]}
{"id": "C304", "title": "The pictures of the laser detections are up to date for all images", "statement": "After every calibration the pictures show its detections over the image, for images of any bit depth and any names.", "quantifier": "all sequences of calibrations, all images", "why_tests_cant": "It needs repeated runs, 16 bit images or shared names.", "anchors": ["src/auv_cal/laser_calibrator.py:draw_laser"]}
{"id": "C305", "title": "A laser calibration uses the settings of its configuration and writes a file for every plane", "statement": "Each of the 18 settings of the laser calibrator is what the configuration says under its section and key, and a fixed default if the configuration says nothing, whatever else is in it. Settings are loaded if and only if there is no 'filter' and the sections detection, stratify and ransac, where given, are dictionaries. With a detection section a file is written for every plane that is fitted: the top one, and the bottom one if two_lasers is true. The shipped configuration gives all defaults but for 38 bins instead of 5.", "quantifier": "all configurations with unique keys", "why_tests_cant": "Every subset of the settings may be given, with any values.", "anchors": ["src/auv_cal/laser_calibrator.py:LaserCalibrator", "src/auv_cal/calibration.py:calibrate_laser"]}
{"id": "C306", "title": "Every setting of the shipped configuration has an effect and every section may be left out", "statement": "Changing a setting of the shipped laser configuration changes the calibrator's setting of that name, and sections may be left out or left empty.", "quantifier": "all configurations", "why_tests_cant": "The shipped value equals the default, so that a setting that is not read goes unnoticed.", "anchors": ["src/auv_cal/laser_calibrator.py:LaserCalibrator", "src/auv_cal/calibration.py:calibrate_laser"]}
{"id": "C307", "title": "Every corrected image is written under its raw image's stem", "statement": "If the raw images' names without extension differ, then after process the output folder has the corrected image of each as stem.format and every other file is as before; filelist.csv has exactly the navigation rows of the images corrected, each with the file name stem.format. Images in bags with different times are written as camera_time.format, and filelist.csv has only rows whose raw file is called camera_time too.", "quantifier": "all lists of images, output folders and formats, navigation tables and files already there", "why_tests_cant": "Names and directory layouts are arbitrary.", "anchors": ["src/correct_images/corrector.py:Corrector.process_image", "src/correct_images/corrector.py:Corrector.process_correction", "src/correct_images/tools/file_handlers.py:write_output_image"]}
{"id": "C308", "title": "Every image has a corrected image of its own, listed in filelist.csv", "statement": "Different raw images are written to different files, and filelist.csv is not empty if images in bags were corrected.", "quantifier": "all lists of images, output folders and formats, navigation tables and files already there", "why_tests_cant": "Names and directory layouts are arbitrary.", "anchors": ["src/correct_images/corrector.py:Corrector.process_image", "src/correct_images/corrector.py:Corrector.process_correction", "src/auv_nav/sensors.py:Camera.from_ros"]}
{"id": "C309", "title": "A stereo calibration from images uses sharp pairs that differ", "statement": "On a new StereoCalibrator, collect_corners over two lists of readable images pairs them by place and uses, in order, exactly the pairs with a sharp board in both images whose left view differs by more than 0.12 from every left view used before; it raises CalibrationException exactly if no pair has a sharp board in both. Images left over in the longer list do not matter. Another collect_corners over the same images uses none of them and raises.", "quantifier": "all lists of images, all sets of boards, all detections, sharpness tests and view parameters, all earlier uses of the calibrator", "why_tests_cant": "The claims range over all image lists and all earlier states of the calibrator.", "anchors": ["src/auv_cal/camera_calibrator.py:StereoCalibrator.collect_corners", "src/auv_cal/camera_calibrator.py:Calibrator.get_corners"]}
{"id": "C310", "title": "A stereo calibration from images can be repeated and passes over bad images", "statement": "Collecting the same images again gives the same pairs; the corners of an entry are those of its board in both images; an image that cannot be read is passed over; left and right images of the same moment are paired although an image is missing.", "quantifier": "all lists of images, all sets of boards", "why_tests_cant": "The claims range over all image lists.", "anchors": ["src/auv_cal/camera_calibrator.py:StereoCalibrator.collect_corners", "src/auv_cal/camera_calibrator.py:Calibrator.get_corners"]}
{"id": "C311", "title": "The orthogonalization matrix keeps the lengths, angles and volume of a cell", "statement": "For angles alpha and beta between 0 and 180 degrees, orthogonalization_matrix returns a matrix exactly if a cell with the three angles exists (its Gram determinant is not negative). The matrix maps the unit vectors to edges of the given lengths with the given angles between them, whose box has the volume abc times the root of the Gram determinant; the third edge is along z and the second in the y-z plane.", "quantifier": "all lengths and angles", "why_tests_cant": "The docstring tests two cells.", "anchors": ["src/auv_nav/tools/transformations.py:orthogonalization_matrix"]}
{"id": "C312", "title": "Any three angles have an orthogonalization matrix, and the first edge stays on the x axis", "statement": "For any three angles between 0 and 180 degrees there is a matrix, and it maps the first unit vector to the x axis.", "quantifier": "all lengths and angles", "why_tests_cant": "The docstring tests two cells.", "anchors": ["src/auv_nav/tools/transformations.py:orthogonalization_matrix"]}
{"id": "C313", "title": "The clip matrix takes exactly the points of the frustrum to normalized device coordinates", "statement": "clip_matrix raises exactly if left >= right, bottom >= top or near >= far, or, with perspective, near is at most four times the machine epsilon. Without perspective a point lies in the box if and only if all its transformed coordinates are between -1 and 1, and the eight corners go to the eight corners with the last coordinate 1. With perspective a point whose z is not 0 lies in the truncated pyramid (seen from the origin through the rectangle at the near distance, between near and far) if and only if its coordinates, divided by the last one, are between -1 and 1; points behind the eye never are. Both matrices agree on the near plane, and near goes to -1, far to 1.", "quantifier": "all bounds, all points", "why_tests_cant": "The docstring tests two corners of one random frustrum; the equivalence is about every point on either side.", "anchors": ["src/auv_nav/tools/transformations.py:clip_matrix"]}
{"id": "C314", "title": "Every pyramid in front of the eye has a clip matrix", "statement": "With perspective, clip_matrix accepts every frustrum with left < right, bottom < top and 0 < near < far.", "quantifier": "all bounds", "why_tests_cant": "Random bounds between 0 and 1 practically never are that small.", "anchors": ["src/auv_nav/tools/transformations.py:clip_matrix"]}
{"id": "C315", "title": "The virtual trackball always holds a rotation and turns about the axis picked", "statement": "arcball_map_to_sphere raises exactly for a zero radius; otherwise it returns a point of the unit sphere on the near side, with the scaled window coordinates inside the circle and their direction outside. arcball_constrain_to_axis of a unit axis returns a unit vector across the axis, on the near side, and nearest to the point among those across the axis up to the side and four times the machine epsilon; it is NaN only for the axis (0, 0, -1) and a point on it. arcball_nearest_axis of one or more such axes returns one of them whose constrained point is nearest. After any sequence of place, setaxes, setconstrain, down, drag and next that does not fail the quaternion of an Arcball has length 1. Sequences with nonzero radii and one or more axes that are not zero and not straight down never fail. Dragging back to where the button was pressed restores the orientation; a free drag from u to v turns u to the point as far again beyond v (or nothing, if they practically coincide); a constrained drag is a rotation about the axis picked, which is the nearest one. The window, the axes (scaled to length 1) and the mode in force are those last set, at first the unit circle about the origin, no axes and free. If the last two orientations are at most a right angle apart as quaternions and do not coincide, next goes on along their great circle, as far again times one plus the acceleration.", "quantifier": "all start orientations, all sequences of operations, all points and axes", "why_tests_cant": "The docstring tests two sequences by the sum of a matrix.", "anchors": ["src/auv_nav/tools/transformations.py:Arcball", "src/auv_nav/tools/transformations.py:arcball_map_to_sphere", "src/auv_nav/tools/transformations.py:arcball_constrain_to_axis", "src/auv_nav/tools/transformations.py:arcball_nearest_axis"]}
{"id": "C316", "title": "Any axes but zero can constrain the trackball, and none lifts the constraint", "statement": "With nonzero radii and axes, pressing the button never fails, whichever way the axes point; and setaxes() without axes lifts the constraint.", "quantifier": "all sequences of operations", "why_tests_cant": "The tests have two axes in the plane of the window and never remove them.", "anchors": ["src/auv_nav/tools/transformations.py:Arcball", "src/auv_nav/tools/transformations.py:arcball_constrain_to_axis"]}
{"id": "C317", "title": "Applying the magnetic declination turns a USBL position by it", "statement": "Usbl.apply_declination increases the bearing of northings and eastings by the declination (in radians) and keeps the distance; latitude and longitude become those of the new position from the reference; the time, the uncertainties, the declination and the reference stay. Two declinations one after the other give what their sum gives, and the opposite one restores the position. It returns exactly if position, declination and both references are there, and then the record is valid if it has a time; without position or declination it raises and changes nothing; a cleared record is not valid and raises.", "quantifier": "all records, positions and declinations; any conversion to latitude and longitude", "why_tests_cant": "No test calls it, and one angle would not show the direction of the turn for the others.", "anchors": ["src/auv_nav/sensors.py:Usbl.apply_declination", "src/auv_nav/sensors.py:Usbl.set_magnetic_declination", "src/auv_nav/sensors.py:Usbl.valid", "src/auv_nav/sensors.py:Usbl.clear"]}
{"id": "C318", "title": "The declination is applied to all of a record, once, or not at all", "statement": "apply_declination turns the uncertainties with the position, a second call changes nothing, and a call that raises leaves the record as it was.", "quantifier": "all records", "why_tests_cant": "No test calls it.", "anchors": ["src/auv_nav/sensors.py:Usbl.apply_declination"]}
