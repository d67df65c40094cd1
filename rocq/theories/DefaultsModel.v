(** The default camera.yaml files of auv_nav/default_yaml and the default correct_images.yaml files of correct_images/default_yaml, which
    correct_images.py:361-473 chooses from, and the auv_nav.yaml that auv_nav/process.py:176-190 copies, as yaml.safe_load reads them.  Written out by a script from those files. *)
From Coq Require Import String.
From Verif Require Import PyBase MissionModel.
Open Scope string_scope.
Open Scope Q_scope.

(** auv_nav/default_yaml/ts1/SSK17-01/camera.yaml *)
Definition camera_acfr_standard : yaml := YMap [("camera_system", YStr "acfr_standard"); ("cameras", YSeq [
    YMap [("name", YStr "LC"); ("type", YStr "rggb"); ("bit_depth", YNum 16); ("path", YStr "image/i*/*LC*"); ("extension", YStr "tif"); ("filename_to_date", YStr "xxxYYYYMMDDxhhmmssxfffxxxxx.xxx")];
    YMap [("name", YStr "RC"); ("type", YStr "rggb"); ("bit_depth", YNum 16); ("path", YStr "image/i*/*RC*"); ("extension", YStr "tif"); ("filename_to_date", YStr "xxxYYYYMMDDxhhmmssxfffxxxxx.xxx")]])].
(** auv_nav/default_yaml/ae2000/YK17-23C/camera.yaml *)
Definition camera_seaxerocks_3 : yaml := YMap [("camera_system", YStr "seaxerocks_3"); ("cameras", YSeq [
    YMap [("name", YStr "Cam51707923"); ("type", YStr "grbg"); ("bit_depth", YNum 18); ("path", YStr "image/SeaXerocksData*/Xviii/Cam51707923"); ("extension", YStr "raw"); ("filename_to_date", YStr "iiiiiii.xxx"); ("timestamp_file", YStr "image/SeaXerocksData*/Xviii/FileTime.csv"); ("columns", YSeq [YMap [("name", YStr "index"); ("content", YStr "iiiiiii")]; YMap [("name", YStr "date"); ("content", YStr "YYYYMMDD")]; YMap [("name", YStr "time"); ("content", YStr "hhmmss")]; YMap [("name", YStr "ms"); ("content", YStr "fff")]])];
    YMap [("name", YStr "Cam51707925"); ("type", YStr "grbg"); ("bit_depth", YNum 18); ("path", YStr "image/SeaXerocksData*/Xviii/Cam51707925"); ("extension", YStr "raw"); ("filename_to_date", YStr "iiiiiii.xxx"); ("timestamp_file", YStr "image/SeaXerocksData*/Xviii/FileTime.csv"); ("columns", YSeq [YMap [("name", YStr "index"); ("content", YStr "iiiiiii")]; YMap [("name", YStr "date"); ("content", YStr "YYYYMMDD")]; YMap [("name", YStr "time"); ("content", YStr "hhmmss")]; YMap [("name", YStr "ms"); ("content", YStr "fff")]])];
    YMap [("name", YStr "LM165"); ("type", YStr "grayscale"); ("bit_depth", YNum 8); ("path", YStr "image/SeaXerocksData*/LM165"); ("extension", YStr "tif"); ("filename_to_date", YStr "iiiiiii.xxx"); ("timestamp_file", YStr "image/SeaXerocksData*/LM165/FileTime.csv"); ("columns", YSeq [YMap [("name", YStr "index"); ("content", YStr "iiiiiii")]; YMap [("name", YStr "date"); ("content", YStr "YYYYMMDD")]; YMap [("name", YStr "time"); ("content", YStr "hhmmss")]; YMap [("name", YStr "ms"); ("content", YStr "fff")]])]])].
(** auv_nav/default_yaml/as6/DY109/camera.yaml *)
Definition camera_biocam : yaml := YMap [("camera_system", YStr "biocam"); ("cameras", YSeq [
    YMap [("name", YStr "cam61003146"); ("type", YStr "rggb"); ("bit_depth", YNum 16); ("path", YStr "image/cam61003146_strobe"); ("extension", YStr "tif"); ("filename_to_date", YStr "YYYYMMDDxhhmmssxfffuuuxxxxxxxxxxxxxxxxxxxxxxxxxxxx.xxx")];
    YMap [("name", YStr "cam61004444"); ("type", YStr "grayscale"); ("bit_depth", YNum 16); ("path", YStr "image/cam61004444_strobe"); ("extension", YStr "tif"); ("filename_to_date", YStr "YYYYMMDDxhhmmssxfffuuuxxxxxxxxxxxxxxxxxxxxxxxxxxxx.xxx")];
    YMap [("name", YStr "cam61004444_laser"); ("type", YStr "grayscale"); ("bit_depth", YNum 16); ("path", YStr "image/cam61004444_laser"); ("extension", YStr "jpg"); ("filename_to_date", YStr "YYYYMMDDxhhmmssxfffuuuxxxxxxxxxxxxxxxxxxxxxxxxxxxx.xxx")];
    YMap [("name", YStr "cam61003146_laser"); ("type", YStr "grayscale"); ("bit_depth", YNum 16); ("path", YStr "image/cam61003146_laser"); ("extension", YStr "jpg"); ("filename_to_date", YStr "YYYYMMDDxhhmmssxfffuuuxxxxxxxxxxxxxxxxxxxxxxxxxxxx.xxx")];
    YMap [("name", YStr "cam61003146"); ("type", YStr "rggb"); ("bit_depth", YNum 16); ("path", YStr "image/cam61003146"); ("extension", YStr "tif"); ("filename_to_date", YStr "YYYYMMDDxhhmmssxfffuuuxxxxxxxxxxxxxxxxxxxxxxxxxxxx.xxx")];
    YMap [("name", YStr "cam61004444"); ("type", YStr "grayscale"); ("bit_depth", YNum 16); ("path", YStr "image/cam61004444"); ("extension", YStr "tif"); ("filename_to_date", YStr "YYYYMMDDxhhmmssxfffuuuxxxxxxxxxxxxxxxxxxxxxxxxxxxx.xxx")];
    YMap [("name", YStr "cam61004444_laser_tif"); ("type", YStr "grayscale"); ("bit_depth", YNum 16); ("path", YStr "image/cam61004444_laser"); ("extension", YStr "tif"); ("filename_to_date", YStr "YYYYMMDDxhhmmssxfffuuuxxxxxxxxxxxxxxxxxxxxxxxxxxxx.xxx")];
    YMap [("name", YStr "cam61003146_laser_tif"); ("type", YStr "grayscale"); ("bit_depth", YNum 16); ("path", YStr "image/cam61003146_laser"); ("extension", YStr "tif"); ("filename_to_date", YStr "YYYYMMDDxhhmmssxfffuuuxxxxxxxxxxxxxxxxxxxxxxxxxxxx.xxx")]])].
(** auv_nav/default_yaml/alr/jc220/camera.yaml *)
Definition camera_biocam4000_15c : yaml := YMap [("camera_system", YStr "biocam4000_15c"); ("cameras", YSeq [
    YMap [("name", YStr "cam61008031"); ("type", YStr "grayscale"); ("bit_depth", YNum 16); ("path", YStr "image/cam61008031_strobe"); ("extension", YStr "tif"); ("filename_to_date", YStr "YYYYMMDDxhhmmssxfffuuuxxxxxxxxxxxxxxxxxxxxxxxxxxxx.xxx")];
    YMap [("name", YStr "cam61008031"); ("type", YStr "grayscale"); ("bit_depth", YNum 16); ("path", YStr "image/cam61008031_laser"); ("extension", YStr "tif"); ("filename_to_date", YStr "YYYYMMDDxhhmmssxfffuuuxxxxxxxxxxxxxxxxxxxxxxxxxxxx.xxx")];
    YMap [("name", YStr "cam61008031"); ("type", YStr "grayscale"); ("bit_depth", YNum 16); ("path", YStr "image/cam61008031_laser"); ("extension", YStr "jpg"); ("filename_to_date", YStr "YYYYMMDDxhhmmssxfffuuuxxxxxxxxxxxxxxxxxxxxxxxxxxxx.xxx")];
    YMap [("name", YStr "cam61008269"); ("type", YStr "rggb"); ("bit_depth", YNum 16); ("path", YStr "image/cam61008269_strobe"); ("extension", YStr "tif"); ("filename_to_date", YStr "YYYYMMDDxhhmmssxfffuuuxxxxxxxxxxxxxxxxxxxxxxxxxxxx.xxx")];
    YMap [("name", YStr "cam61008269"); ("type", YStr "rggb"); ("bit_depth", YNum 16); ("path", YStr "image/cam61008269_laser"); ("extension", YStr "tif"); ("filename_to_date", YStr "YYYYMMDDxhhmmssxfffuuuxxxxxxxxxxxxxxxxxxxxxxxxxxxx.xxx")]])].
(** auv_nav/default_yaml/hybis/camera.yaml *)
Definition camera_hybis : yaml := YMap [("camera_system", YStr "hybis"); ("cameras", YSeq [
    YMap [("name", YStr "scorpio"); ("type", YStr "rgb"); ("bit_depth", YNum 8); ("path", YStr "image/scorpio"); ("extension", YStr "JPG"); ("filename_to_date", YStr "m")]])].
(** auv_nav/default_yaml/ntnu_stereo/tautra21/camera.yaml *)
Definition camera_ntnu_stereo : yaml := YMap [("camera_system", YStr "ntnu_stereo"); ("cameras", YSeq [
    YMap [("name", YStr "ntnu_stereo_left"); ("type", YStr "rgb"); ("bit_depth", YNum 8); ("path", YStr "image/*/*L"); ("extension", YStr "jpg"); ("filename_to_date", YStr "YYMMDDxhhmmssxfffx.xxx")];
    YMap [("name", YStr "ntnu_stereo_right"); ("type", YStr "rgb"); ("bit_depth", YNum 8); ("path", YStr "image/*/*R"); ("extension", YStr "jpg"); ("filename_to_date", YStr "YYMMDDxhhmmssxfffx.xxx")]])].
(** auv_nav/default_yaml/smarty200/stereo_gopro/camera.yaml *)
Definition camera_stereo_gopro : yaml := YMap [("camera_system", YStr "stereo_gopro"); ("cameras", YSeq [
    YMap [("name", YStr "gopro_left"); ("type", YStr "rgb"); ("bit_depth", YNum 8); ("path", YStr "image/left/*"); ("extension", YStr "JPG"); ("filename_to_date", YStr "xiiiiiii.xxx"); ("timestamp_file", YStr "image/filelist.csv"); ("columns", YSeq [YMap [("name", YStr "file_left"); ("content", YStr "filename")]; YMap [("name", YStr "number_left"); ("content", YStr "iiiiiii")]; YMap [("name", YStr "epoch"); ("content", YStr "epoch_timestamp")]])];
    YMap [("name", YStr "gopro_right"); ("type", YStr "rgb"); ("bit_depth", YNum 8); ("path", YStr "image/right/*"); ("extension", YStr "JPG"); ("filename_to_date", YStr "xiiiiiii.xxx"); ("timestamp_file", YStr "image/filelist.csv"); ("columns", YSeq [YMap [("name", YStr "file_right"); ("content", YStr "filename")]; YMap [("name", YStr "number_right"); ("content", YStr "iiiiiii")]; YMap [("name", YStr "epoch"); ("content", YStr "epoch_timestamp")]])]])].
(** auv_nav/default_yaml/smarty200/voyis/camera.yaml *)
Definition camera_voyis : yaml := YMap [("camera_system", YStr "voyis"); ("cameras", YSeq [
    YMap [("name", YStr "stills"); ("type", YStr "rggb"); ("bit_depth", YNum 16); ("path", YStr "image/stills/*"); ("extension", YStr "tif"); ("filename_to_date", YStr "xxxxxxxxxxxxxxxxxxxYYYYxMMxDDxhhmmssxfffuuuxx.xxx")];
    YMap [("name", YStr "laser"); ("type", YStr "grayscale"); ("bit_depth", YNum 16); ("path", YStr "image/laser/*"); ("extension", YStr "tif"); ("filename_to_date", YStr "xxxxxxxxxxxxxxxxxxxxYYYYxMMxDDxhhmmssxfffuuuxx.xxx")]])].
(** auv_nav/default_yaml/rosbag/grassmap/camera.yaml *)
Definition camera_rosbag : yaml := YMap [("camera_system", YStr "rosbag"); ("cameras", YSeq [
    YMap [("name", YStr "/camera_topic/left/image_raw"); ("type", YStr "rggb"); ("bit_depth", YNum 8); ("path", YStr "images/bagfiles/southampton_image_"); ("extension", YStr "bag"); ("filename_to_date", YStr "xxxxxeeeeeeeeeeeeeeeeeeee.xxx")];
    YMap [("name", YStr "/camera_topic/right/image_raw"); ("type", YStr "rggb"); ("bit_depth", YNum 8); ("path", YStr "images/bagfiles/southampton_image_"); ("extension", YStr "bag"); ("filename_to_date", YStr "xxxxxeeeeeeeeeeeeeeeeeeee.xxx")]])].
(** correct_images/default_yaml/acfr/correct_images.yaml *)
Definition correct_acfr : yaml := YMap [("version", YNum 2); ("method", YStr "colour_correction"); ("colour_correction", YMap [("distance_metric", YStr "altitude"); ("metric_path", YStr "json_renav_*"); ("altitude_filter", YMap [("parse", YMap [("min_m", YNum 2); ("max_m", YNum 12)]); ("process", YMap [("min_m", YNum 2); ("max_m", YNum 12)])]); ("smoothing", YStr "median"); ("window_size", YNum 3)]); ("cameras", YSeq [
    YMap [("camera_name", YStr "LC"); ("image_file_list", YMap [("parse", YStr "none"); ("process", YStr "none")]); ("colour_correction", YMap [("brightness", YNum 30); ("contrast", YNum 3)]); ("manual_balance", YMap [("subtractors_rgb", YSeq [YNum 0; YNum 0; YNum 0]); ("colour_gain_matrix_rgb", YSeq [YSeq [YNum 1; YNum 0; YNum 0]; YSeq [YNum 0; YNum 1; YNum 0]; YSeq [YNum 0; YNum 0; YNum 1]])])];
    YMap [("camera_name", YStr "RC"); ("image_file_list", YMap [("parse", YStr "none"); ("process", YStr "none")]); ("colour_correction", YMap [("brightness", YNum 30); ("contrast", YNum 3)]); ("manual_balance", YMap [("subtractors_rgb", YSeq [YNum 0; YNum 0; YNum 0]); ("colour_gain_matrix_rgb", YSeq [YSeq [YNum 1; YNum 0; YNum 0]; YSeq [YNum 0; YNum 1; YNum 0]; YSeq [YNum 0; YNum 0; YNum 1]])])]]); ("output_settings", YMap [("undistort", YBool false); ("compression_parameter", YStr "png")]); ("rescale", YSeq [
    YMap [("camera_name", YStr "LC"); ("path", YNull); ("distance_path", YNull); ("interpolate_method", YStr "bicubic"); ("target_pixel_size", YNum (1 # 100)); ("maintain_pixels", YBool true); ("output_folder", YNull)]])].
(** correct_images/default_yaml/sx3/correct_images.yaml *)
Definition correct_sx3 : yaml := YMap [("version", YNum 2); ("method", YStr "colour_correction"); ("colour_correction", YMap [("distance_metric", YStr "altitude"); ("metric_path", YStr "json_renav_*"); ("altitude_filter", YMap [("parse", YMap [("min_m", YNum 2); ("max_m", YNum 12)]); ("process", YMap [("min_m", YNum 2); ("max_m", YNum 12)])]); ("smoothing", YStr "median"); ("window_size", YNum 3)]); ("cameras", YSeq [
    YMap [("camera_name", YStr "Cam51707923"); ("image_file_list", YMap [("parse", YStr "none"); ("process", YStr "none")]); ("colour_correction", YMap [("brightness", YNum 30); ("contrast", YNum 3)]); ("manual_balance", YMap [("subtractors_rgb", YSeq [YNum 0; YNum 0; YNum 0]); ("colour_gain_matrix_rgb", YSeq [YSeq [YNum 1; YNum 0; YNum 0]; YSeq [YNum 0; YNum 1; YNum 0]; YSeq [YNum 0; YNum 0; YNum 1]])])];
    YMap [("camera_name", YStr "Cam51707925"); ("image_file_list", YMap [("parse", YStr "none"); ("process", YStr "none")]); ("colour_correction", YMap [("brightness", YNum 30); ("contrast", YNum 3)]); ("manual_balance", YMap [("subtractors_rgb", YSeq [YNum 0; YNum 0; YNum 0]); ("colour_gain_matrix_rgb", YSeq [YSeq [YNum 1; YNum 0; YNum 0]; YSeq [YNum 0; YNum 1; YNum 0]; YSeq [YNum 0; YNum 0; YNum 1]])])]]); ("output_settings", YMap [("undistort", YBool false); ("compression_parameter", YStr "png")]); ("rescale", YSeq [
    YMap [("camera_name", YStr "Cam51707923"); ("path", YNull); ("distance_path", YNull); ("interpolate_method", YStr "bicubic"); ("target_pixel_size", YNum (1 # 100)); ("maintain_pixels", YBool true); ("output_folder", YNull)]])].
(** correct_images/default_yaml/biocam/correct_images.yaml *)
Definition correct_biocam : yaml := YMap [("version", YNum 2); ("method", YStr "colour_correction"); ("colour_correction", YMap [("distance_metric", YStr "altitude"); ("metric_path", YStr "json_renav_*"); ("altitude_filter", YMap [("parse", YMap [("min_m", YNum 2); ("max_m", YNum 12)]); ("process", YMap [("min_m", YNum 2); ("max_m", YNum 12)])]); ("smoothing", YStr "median"); ("window_size", YNum 3)]); ("cameras", YSeq [
    YMap [("camera_name", YStr "cam61003146"); ("image_file_list", YMap [("parse", YStr "none"); ("process", YStr "none")]); ("colour_correction", YMap [("brightness", YNum 30); ("contrast", YNum 3)]); ("manual_balance", YMap [("subtractors_rgb", YSeq [YNum 0; YNum 0; YNum 0]); ("colour_gain_matrix_rgb", YSeq [YSeq [YNum 1; YNum 0; YNum 0]; YSeq [YNum 0; YNum 1; YNum 0]; YSeq [YNum 0; YNum 0; YNum 1]])])];
    YMap [("camera_name", YStr "cam61004444"); ("image_file_list", YMap [("parse", YStr "none"); ("process", YStr "none")]); ("colour_correction", YMap [("brightness", YNum 30); ("contrast", YNum 3)]); ("manual_balance", YMap [("subtractors_rgb", YSeq [YNum 0]); ("colour_gain_matrix_rgb", YSeq [YSeq [YNum 1]])])]]); ("output_settings", YMap [("undistort", YBool false); ("compression_parameter", YStr "png")]); ("rescale", YSeq [
    YMap [("camera_name", YStr "cam61003146"); ("path", YNull); ("distance_path", YNull); ("interpolate_method", YStr "bicubic"); ("target_pixel_size", YNum (1 # 100)); ("maintain_pixels", YBool true); ("output_folder", YNull)]])].
(** correct_images/default_yaml/biocam4000_15c/correct_images.yaml *)
Definition correct_biocam4000_15c : yaml := YMap [("version", YNum 2); ("method", YStr "manual_balance"); ("colour_correction", YMap [("distance_metric", YStr "altitude"); ("metric_path", YStr "json_renav_*"); ("altitude_filter", YMap [("parse", YMap [("min_m", YNum 2); ("max_m", YNum 12)]); ("process", YMap [("min_m", YNum 2); ("max_m", YNum 12)])]); ("smoothing", YStr "median"); ("window_size", YNum 3)]); ("cameras", YSeq [
    YMap [("camera_name", YStr "cam61008031"); ("image_file_list", YMap [("parse", YStr "none"); ("process", YStr "none")]); ("colour_correction", YMap [("brightness", YNum 30); ("contrast", YNum 3)]); ("manual_balance", YMap [("subtractors_rgb", YSeq [YNum 0]); ("colour_gain_matrix_rgb", YSeq [YSeq [YNum 8]])])];
    YMap [("camera_name", YStr "cam61008269"); ("image_file_list", YMap [("parse", YStr "none"); ("process", YStr "none")]); ("colour_correction", YMap [("brightness", YNum 30); ("contrast", YNum 3)]); ("manual_balance", YMap [("subtractors_rgb", YSeq [YNum 0; YNum 0; YNum 0]); ("colour_gain_matrix_rgb", YSeq [YSeq [YNum 8; YNum 0; YNum 0]; YSeq [YNum 0; YNum (167 # 10); YNum 0]; YSeq [YNum 0; YNum 0; YNum 26]])])]]); ("output_settings", YMap [("undistort", YBool false); ("compression_parameter", YStr "png")]); ("rescale", YSeq [
    YMap [("camera_name", YStr "cam61008269"); ("path", YNull); ("distance_path", YNull); ("interpolate_method", YStr "bicubic"); ("target_pixel_size", YNum (1 # 100)); ("maintain_pixels", YBool true); ("output_folder", YNull)]])].
(** correct_images/default_yaml/hybis/correct_images.yaml *)
Definition correct_hybis : yaml := YMap [("version", YNum 2); ("method", YStr "colour_correction"); ("colour_correction", YMap [("distance_metric", YStr "altitude"); ("metric_path", YStr "json_renav_*"); ("altitude_filter", YMap [("parse", YMap [("min_m", YNum (3 # 2)); ("max_m", YNum (11 # 2))]); ("process", YMap [("min_m", YNum (3 # 2)); ("max_m", YNum (11 # 2))])]); ("smoothing", YStr "median"); ("window_size", YNum 3)]); ("cameras", YSeq [
    YMap [("camera_name", YStr "scorpio"); ("image_file_list", YMap [("parse", YStr "none"); ("process", YStr "none")]); ("colour_correction", YMap [("brightness", YNum 30); ("contrast", YNum 3)]); ("manual_balance", YMap [("subtractors_rgb", YSeq [YNum 0; YNum 0; YNum 0]); ("colour_gain_matrix_rgb", YSeq [YSeq [YNum 1; YNum 0; YNum 0]; YSeq [YNum 0; YNum 1; YNum 0]; YSeq [YNum 0; YNum 0; YNum 1]])])]]); ("output_settings", YMap [("undistort", YBool false); ("compression_parameter", YStr "png")]); ("rescale", YSeq [
    YMap [("camera_name", YStr "scorpio"); ("path", YNull); ("distance_path", YNull); ("interpolate_method", YStr "bicubic"); ("target_pixel_size", YNum (1 # 100)); ("maintain_pixels", YBool true); ("output_folder", YNull)]])].
(** correct_images/default_yaml/ntnu_stereo/correct_images.yaml *)
Definition correct_ntnu_stereo : yaml := YMap [("version", YNum 2); ("method", YStr "colour_correction"); ("colour_correction", YMap [("distance_metric", YStr "altitude"); ("metric_path", YStr "json_renav_*"); ("altitude_filter", YMap [("parse", YMap [("min_m", YNum 1); ("max_m", YNum 4)]); ("process", YMap [("min_m", YNum 1); ("max_m", YNum 4)])]); ("smoothing", YStr "median"); ("window_size", YNum 3); ("curve_fitting__rejection", YBool false)]); ("cameras", YSeq [
    YMap [("camera_name", YStr "ntnu_stereo_left"); ("image_file_list", YMap [("parse", YStr "none"); ("process", YStr "none")]); ("colour_correction", YMap [("brightness", YNum 30); ("contrast", YNum 3)]); ("manual_balance", YMap [("subtractors_rgb", YSeq [YNum 0; YNum 0; YNum 0]); ("colour_gain_matrix_rgb", YSeq [YSeq [YNum 1; YNum 0; YNum 0]; YSeq [YNum 0; YNum 1; YNum 0]; YSeq [YNum 0; YNum 0; YNum 1]])])];
    YMap [("camera_name", YStr "ntnu_stereo_right"); ("image_file_list", YMap [("parse", YStr "none"); ("process", YStr "none")]); ("colour_correction", YMap [("brightness", YNum 30); ("contrast", YNum 3)]); ("manual_balance", YMap [("subtractors_rgb", YSeq [YNum 0; YNum 0; YNum 0]); ("colour_gain_matrix_rgb", YSeq [YSeq [YNum 1; YNum 0; YNum 0]; YSeq [YNum 0; YNum 1; YNum 0]; YSeq [YNum 0; YNum 0; YNum 1]])])]]); ("output_settings", YMap [("undistort", YBool false); ("compression_parameter", YStr "png")]); ("rescale", YSeq [
    YMap [("camera_name", YStr "ntnu_stereo_left"); ("path", YNull); ("distance_path", YNull); ("interpolate_method", YStr "bicubic"); ("target_pixel_size", YNum (1 # 100)); ("maintain_pixels", YBool true); ("output_folder", YNull)]])].
(** correct_images/default_yaml/stereo_gopro/correct_images.yaml *)
Definition correct_stereo_gopro : yaml := YMap [("version", YNum 2); ("method", YStr "colour_correction"); ("colour_correction", YMap [("distance_metric", YStr "altitude"); ("metric_path", YStr "json_renav_*"); ("altitude_filter", YMap [("parse", YMap [("min_m", YNum (4 # 5)); ("max_m", YNum (3 # 2))]); ("process", YMap [("min_m", YNum (4 # 5)); ("max_m", YNum (3 # 2))])]); ("smoothing", YStr "median"); ("window_size", YNum 3)]); ("cameras", YSeq [
    YMap [("camera_name", YStr "gopro_left"); ("image_file_list", YMap [("parse", YStr "none"); ("process", YStr "none")]); ("colour_correction", YMap [("brightness", YNum 25); ("contrast", YNum 7)]); ("manual_balance", YMap [("subtractors_rgb", YSeq [YNum 0; YNum 0; YNum 0]); ("colour_gain_matrix_rgb", YSeq [YSeq [YNum 1; YNum 0; YNum 0]; YSeq [YNum 0; YNum 1; YNum 0]; YSeq [YNum 0; YNum 0; YNum 1]])])];
    YMap [("camera_name", YStr "gopro_right"); ("image_file_list", YMap [("parse", YStr "none"); ("process", YStr "none")]); ("colour_correction", YMap [("brightness", YNum 25); ("contrast", YNum 7)]); ("manual_balance", YMap [("subtractors_rgb", YSeq [YNum 0; YNum 0; YNum 0]); ("colour_gain_matrix_rgb", YSeq [YSeq [YNum 1; YNum 0; YNum 0]; YSeq [YNum 0; YNum 1; YNum 0]; YSeq [YNum 0; YNum 0; YNum 1]])])]]); ("output_settings", YMap [("undistort", YBool false); ("compression_parameter", YStr "png")]); ("rescale", YSeq [
    YMap [("camera_name", YStr "gopro_left"); ("path", YNull); ("distance_path", YNull); ("interpolate_method", YStr "bicubic"); ("target_pixel_size", YNum (1 # 100)); ("maintain_pixels", YBool true); ("output_folder", YNull)]])].
(** correct_images/default_yaml/voyis/correct_images.yaml *)
Definition correct_voyis : yaml := YMap [("version", YNum 2); ("method", YStr "colour_correction"); ("colour_correction", YMap [("distance_metric", YStr "altitude"); ("metric_path", YStr "json_renav_*"); ("altitude_filter", YMap [("parse", YMap [("min_m", YNum (4 # 5)); ("max_m", YNum (5 # 2))]); ("process", YMap [("min_m", YNum (4 # 5)); ("max_m", YNum (5 # 2))])]); ("smoothing", YStr "median"); ("window_size", YNum 3)]); ("cameras", YSeq [
    YMap [("camera_name", YStr "stills"); ("image_file_list", YMap [("parse", YStr "none"); ("process", YStr "none")]); ("colour_correction", YMap [("brightness", YNum 25); ("contrast", YNum 7)]); ("manual_balance", YMap [("subtractors_rgb", YSeq [YNum 0; YNum 0; YNum 0]); ("colour_gain_matrix_rgb", YSeq [YSeq [YNum 1; YNum 0; YNum 0]; YSeq [YNum 0; YNum 1; YNum 0]; YSeq [YNum 0; YNum 0; YNum 1]])])]]); ("output_settings", YMap [("undistort", YBool false); ("compression_parameter", YStr "png")]); ("rescale", YSeq [
    YMap [("camera_name", YStr "stills"); ("path", YNull); ("distance_path", YNull); ("interpolate_method", YStr "bicubic"); ("target_pixel_size", YNum (1 # 100)); ("maintain_pixels", YBool true); ("output_folder", YNull)]])].
(** correct_images/default_yaml/rosbag/correct_images.yaml *)
Definition correct_rosbag : yaml := YMap [("version", YNum 2); ("method", YStr "colour_correction"); ("colour_correction", YMap [("distance_metric", YStr "altitude"); ("metric_path", YStr "json_renav_*"); ("altitude_filter", YMap [("parse", YMap [("min_m", YNum 2); ("max_m", YNum 12)]); ("process", YMap [("min_m", YNum 2); ("max_m", YNum 12)])]); ("smoothing", YStr "median"); ("window_size", YNum 3)]); ("cameras", YSeq [
    YMap [("camera_name", YStr "/camera_topic/image_raw"); ("image_file_list", YMap [("parse", YStr "none"); ("process", YStr "none")]); ("colour_correction", YMap [("brightness", YNum 30); ("contrast", YNum 3)]); ("manual_balance", YMap [("subtractors_rgb", YSeq [YNum 0; YNum 0; YNum 0]); ("colour_gain_matrix_rgb", YSeq [YSeq [YNum 1; YNum 0; YNum 0]; YSeq [YNum 0; YNum 1; YNum 0]; YSeq [YNum 0; YNum 0; YNum 1]])])]]); ("output_settings", YMap [("undistort", YBool false); ("compression_parameter", YStr "png")]); ("rescale", YSeq [
    YMap [("camera_name", YStr "/camera_topic/image_raw"); ("path", YNull); ("distance_path", YNull); ("interpolate_method", YStr "bicubic"); ("target_pixel_size", YNum (1 # 100)); ("maintain_pixels", YBool true); ("output_folder", YNull)]])].
(** auv_nav/default_yaml/auv_nav.yaml *)
Definition auv_nav_default : yaml := YMap [("std", YMap [("position_xy", YMap [("offset", YNum 2); ("factor", YNum (1 # 100)); ("model", YStr "sensor")]); ("position_z", YMap [("offset", YNum (1 # 100)); ("factor", YNum 0); ("model", YStr "sensor")]); ("speed", YMap [("offset", YNum (1 # 500)); ("factor", YNum (1 # 1000)); ("model", YStr "sensor")]); ("orientation", YMap [("offset", YNum (1 # 100)); ("factor", YNum 0); ("model", YStr "sensor")])]); ("usbl_filter", YMap [("activate", YBool true); ("max_auv_speed", YNum 2); ("sigma_factor", YNum 2)]); ("ekf", YMap [("activate", YBool true); ("activate_smoother", YBool true); ("mahalanobis_distance_threshold", YNum 3); ("process_noise_covariance", YSeq [YNum (1 # 20); YNum 0; YNum 0; YNum 0; YNum 0; YNum 0; YNum 0; YNum 0; YNum 0; YNum 0; YNum 0; YNum 0; YNum 0; YNum (1 # 20); YNum 0; YNum 0; YNum 0; YNum 0; YNum 0; YNum 0; YNum 0; YNum 0; YNum 0; YNum 0; YNum 0; YNum 0; YNum (3 # 50); YNum 0; YNum 0; YNum 0; YNum 0; YNum 0; YNum 0; YNum 0; YNum 0; YNum 0; YNum 0; YNum 0; YNum 0; YNum (3 # 100); YNum 0; YNum 0; YNum 0; YNum 0; YNum 0; YNum 0; YNum 0; YNum 0; YNum 0; YNum 0; YNum 0; YNum 0; YNum (3 # 100); YNum 0; YNum 0; YNum 0; YNum 0; YNum 0; YNum 0; YNum 0; YNum 0; YNum 0; YNum 0; YNum 0; YNum 0; YNum (3 # 50); YNum 0; YNum 0; YNum 0; YNum 0; YNum 0; YNum 0; YNum 0; YNum 0; YNum 0; YNum 0; YNum 0; YNum 0; YNum (1 # 40); YNum 0; YNum 0; YNum 0; YNum 0; YNum 0; YNum 0; YNum 0; YNum 0; YNum 0; YNum 0; YNum 0; YNum 0; YNum (1 # 40); YNum 0; YNum 0; YNum 0; YNum 0; YNum 0; YNum 0; YNum 0; YNum 0; YNum 0; YNum 0; YNum 0; YNum 0; YNum (1 # 25); YNum 0; YNum 0; YNum 0; YNum 0; YNum 0; YNum 0; YNum 0; YNum 0; YNum 0; YNum 0; YNum 0; YNum 0; YNum (1 # 100); YNum 0; YNum 0; YNum 0; YNum 0; YNum 0; YNum 0; YNum 0; YNum 0; YNum 0; YNum 0; YNum 0; YNum 0; YNum (1 # 100); YNum 0; YNum 0; YNum 0; YNum 0; YNum 0; YNum 0; YNum 0; YNum 0; YNum 0; YNum 0; YNum 0; YNum 0; YNum (1 # 50)]); ("initial_estimate_covariance", YSeq [YStr "1e-9"; YNum 0; YNum 0; YNum 0; YNum 0; YNum 0; YNum 0; YNum 0; YNum 0; YNum 0; YNum 0; YNum 0; YNum 0; YStr "1e-9"; YNum 0; YNum 0; YNum 0; YNum 0; YNum 0; YNum 0; YNum 0; YNum 0; YNum 0; YNum 0; YNum 0; YNum 0; YStr "1e-9"; YNum 0; YNum 0; YNum 0; YNum 0; YNum 0; YNum 0; YNum 0; YNum 0; YNum 0; YNum 0; YNum 0; YNum 0; YStr "1e-9"; YNum 0; YNum 0; YNum 0; YNum 0; YNum 0; YNum 0; YNum 0; YNum 0; YNum 0; YNum 0; YNum 0; YNum 0; YStr "1e-9"; YNum 0; YNum 0; YNum 0; YNum 0; YNum 0; YNum 0; YNum 0; YNum 0; YNum 0; YNum 0; YNum 0; YNum 0; YStr "1e-9"; YNum 0; YNum 0; YNum 0; YNum 0; YNum 0; YNum 0; YNum 0; YNum 0; YNum 0; YNum 0; YNum 0; YNum 0; YStr "1e-9"; YNum 0; YNum 0; YNum 0; YNum 0; YNum 0; YNum 0; YNum 0; YNum 0; YNum 0; YNum 0; YNum 0; YNum 0; YStr "1e-9"; YNum 0; YNum 0; YNum 0; YNum 0; YNum 0; YNum 0; YNum 0; YNum 0; YNum 0; YNum 0; YNum 0; YNum 0; YStr "1e-9"; YNum 0; YNum 0; YNum 0; YNum 0; YNum 0; YNum 0; YNum 0; YNum 0; YNum 0; YNum 0; YNum 0; YNum 0; YStr "1e-9"; YNum 0; YNum 0; YNum 0; YNum 0; YNum 0; YNum 0; YNum 0; YNum 0; YNum 0; YNum 0; YNum 0; YNum 0; YStr "1e-9"; YNum 0; YNum 0; YNum 0; YNum 0; YNum 0; YNum 0; YNum 0; YNum 0; YNum 0; YNum 0; YNum 0; YNum 0; YStr "1e-9"])]); ("particle_filter", YMap [("activate", YBool false); ("mode", YStr "usbl"); ("dvl_noise_sigma_factor", YNum 2); ("imu_noise_sigma_factor", YNum 2); ("usbl_noise_sigma_factor", YNum 1); ("particles_number", YNum 300); ("particles_plot_time_interval", YNum 600)]); ("csv_output", YMap [("activate", YBool true); ("usbl", YBool true); ("dead_reckoning", YMap [("auv_centre", YBool true); ("auv_dvl", YBool true); ("camera_1", YBool true); ("camera_2", YBool true); ("camera_3", YBool true); ("payload", YBool true)]); ("particle_filter", YMap [("auv_centre", YBool true); ("auv_dvl", YBool true); ("camera_1", YBool true); ("camera_2", YBool true); ("camera_3", YBool true); ("payload", YBool true)]); ("ekf", YMap [("auv_centre", YBool true); ("camera_1", YBool true); ("camera_2", YBool true); ("camera_3", YBool true); ("payload", YBool true)])]); ("spp_output", YMap [("activate", YBool false); ("ekf", YMap [("auv_centre", YBool true); ("camera_1", YBool true); ("camera_2", YBool true); ("camera_3", YBool true)])]); ("plot_output", YMap [("activate", YBool true); ("html_plot", YBool true)])].

(** The files of the package, by their path below the folder of the sources. *)
Definition shipped : list (string * yaml) := [
  ("auv_nav/default_yaml/ts1/SSK17-01/camera.yaml", camera_acfr_standard);
  ("auv_nav/default_yaml/ae2000/YK17-23C/camera.yaml", camera_seaxerocks_3);
  ("auv_nav/default_yaml/as6/DY109/camera.yaml", camera_biocam);
  ("auv_nav/default_yaml/alr/jc220/camera.yaml", camera_biocam4000_15c);
  ("auv_nav/default_yaml/hybis/camera.yaml", camera_hybis);
  ("auv_nav/default_yaml/ntnu_stereo/tautra21/camera.yaml", camera_ntnu_stereo);
  ("auv_nav/default_yaml/smarty200/stereo_gopro/camera.yaml", camera_stereo_gopro);
  ("auv_nav/default_yaml/smarty200/voyis/camera.yaml", camera_voyis);
  ("auv_nav/default_yaml/rosbag/grassmap/camera.yaml", camera_rosbag);
  ("correct_images/default_yaml/acfr/correct_images.yaml", correct_acfr);
  ("correct_images/default_yaml/sx3/correct_images.yaml", correct_sx3);
  ("correct_images/default_yaml/biocam/correct_images.yaml", correct_biocam);
  ("correct_images/default_yaml/biocam4000_15c/correct_images.yaml", correct_biocam4000_15c);
  ("correct_images/default_yaml/hybis/correct_images.yaml", correct_hybis);
  ("correct_images/default_yaml/ntnu_stereo/correct_images.yaml", correct_ntnu_stereo);
  ("correct_images/default_yaml/stereo_gopro/correct_images.yaml", correct_stereo_gopro);
  ("correct_images/default_yaml/voyis/correct_images.yaml", correct_voyis);
  ("correct_images/default_yaml/rosbag/correct_images.yaml", correct_rosbag)].
