-Q theories Verif
theories/PyBase.v
theories/InterpModel.v
theories/InterpSpec.v
theories/InterpProofs.v
theories/InterpProps.v
theories/FramesModel.v
theories/FramesSpec.v
theories/FramesProofs.v
theories/FramesProps.v
theories/DrModel.v
theories/DrSpec.v
theories/DrProofs.v
theories/DrProps.v
theories/TimeModel.v
theories/TimeSpec.v
theories/TimeProofs.v
theories/TimeProps.v
theories/PathsModel.v
theories/PathsSpec.v
theories/PathsProps.v
theories/NmeaModel.v
theories/NmeaSpec.v
theories/NmeaProofs.v
theories/NmeaProps.v
theories/InterlaceModel.v
theories/InterlaceSpec.v
theories/InterlaceProofs.v
theories/InterlaceProps.v
theories/UsblModel.v
theories/UsblSpec.v
theories/UsblProofs.v
theories/UsblProps.v
theories/EkfModel.v
theories/EkfSpec.v
theories/EkfProofs.v
theories/EkfWitness.v
theories/EkfProps.v
theories/EkfRunModel.v
theories/EkfRunSpec.v
theories/EkfRunProofs.v
theories/EkfRunProps.v
theories/ListFacts.v
theories/EkfCamModel.v
theories/EkfCamProofs.v
theories/EkfCamProps.v
theories/AngleModel.v
theories/AngleProofs.v
theories/AngleProps.v
theories/EkfJacModel.v
theories/EkfJacProofs.v
theories/EkfJacProps.v
theories/SortQ.v
theories/PfModel.v
theories/PfProofs.v
theories/PfRunProofs.v
theories/PfTrajModel.v
theories/PfTrajProofs.v
theories/PfLik.v
theories/PfProps.v
theories/PfTrajProps.v
theories/TideModel.v
theories/TideProofs.v
theories/TideProps.v
theories/GuardModel.v
theories/GuardProofs.v
theories/GuardProps.v
theories/StereoModel.v
theories/StereoProofs.v
theories/StereoProps.v
theories/BiocamModel.v
theories/BiocamProofs.v
theories/BiocamProps.v
theories/LatlonModel.v
theories/LatlonProps.v
theories/GapsModel.v
theories/GapsProofs.v
theories/GapsProps.v
theories/StreamModel.v
theories/StreamProps.v
theories/RdiModel.v
theories/RdiProps.v
theories/AcfrModel.v
theories/AcfrProofs.v
theories/AcfrProps.v
theories/SensorModel.v
theories/SensorProps.v
theories/CsvModel.v
theories/CsvProps.v
theories/SppModel.v
theories/SppProps.v
theories/RaceModel.v
theories/RaceProps.v
theories/WindowModel.v
theories/WindowProps.v
theories/MergeModel.v
theories/MergeProps.v
theories/MissionModel.v
theories/MissionProps.v
theories/StatsModel.v
theories/StatsProps.v
theories/AttenModel.v
theories/AttenProps.v
theories/PixelModel.v
theories/PixelProps.v
theories/LoaderModel.v
theories/LoaderProps.v
theories/FilesModel.v
theories/FilesProps.v
theories/SelectModel.v
theories/SelectProps.v
theories/AlrModel.v
theories/AlrProps.v
theories/RansacModel.v
theories/RansacProps.v
theories/PlaneModel.v
theories/PlaneProps.v
theories/EulerModel.v
theories/EulerProps.v
theories/CameraModel.v
theories/CameraProps.v
theories/ConfigModel.v
theories/ConfigProps.v
theories/LaserModel.v
theories/LaserProps.v
theories/SeafloorModel.v
theories/SeafloorProps.v
theories/VoyisModel.v
theories/VoyisProps.v
theories/HybisModel.v
theories/HybisProps.v
theories/OffsetModel.v
theories/OffsetProps.v
theories/QuatModel.v
theories/QuatProps.v
theories/PfMoveModel.v
theories/PfMoveProps.v
theories/InertialModel.v
theories/InertialProps.v
theories/PhinsModel.v
theories/PhinsProps.v
theories/TableModel.v
theories/TableProps.v
theories/NtnuModel.v
theories/NtnuProps.v
theories/EivaModel.v
theories/EivaProps.v
theories/PlaceModel.v
theories/PlaceProps.v
theories/VehicleModel.v
theories/VehicleProps.v
theories/CamSysModel.v
theories/CamSysProps.v
theories/MeasModel.v
theories/MeasProps.v
theories/PipeModel.v
theories/PipeProps.v
theories/ParseModel.v
theories/ParseProps.v
theories/Ae2000Model.v
theories/Ae2000Props.v
theories/SeaxModel.v
theories/SeaxProps.v
theories/RovModel.v
theories/RovProps.v
theories/GraphModel.v
theories/GraphProps.v
theories/BinModel.v
theories/BinProps.v
theories/LaserCalModel.v
theories/LaserCalProps.v
theories/TriModel.v
theories/TriProps.v
theories/RosModel.v
theories/RosProps.v
theories/NocModel.v
theories/NocProps.v
theories/ViewsModel.v
theories/ViewsProps.v
theories/CalibModel.v
theories/CalibProps.v
theories/SonarModel.v
theories/SonarProps.v
theories/BoardModel.v
theories/BoardProps.v
theories/CalRunModel.v
theories/CalRunProps.v
theories/ConeModel.v
theories/ConeProps.v
theories/NavFileModel.v
theories/NavFileProps.v
theories/TrackModel.v
theories/TrackSpec.v
theories/TrackProofs.v
theories/TrackProps.v
theories/DriftProps.v
theories/TurnProps.v
theories/BagModel.v
theories/BagProps.v
theories/CorrModel.v
theories/CorrProofs.v
theories/CorrProps.v
theories/DefaultsModel.v
theories/LoadCfgModel.v
theories/LoadCfgProps.v
theories/NavCfgModel.v
theories/NavCfgProps.v
theories/RescaleModel.v
theories/RescaleProps.v
theories/CalFileModel.v
theories/CalFileProps.v
theories/RelPoseModel.v
theories/RelPoseProps.v
theories/FloatModel.v
theories/FloatProofs.v
theories/FloatTimeProps.v
theories/FloatProps.v
theories/DumpModel.v
theories/DumpProps.v
theories/TrainModel.v
theories/TrainProofs.v
theories/TrainProps.v
theories/SssModel.v
theories/SssProps.v
theories/AcfrTextModel.v
theories/AcfrTextProps.v
theories/BioListModel.v
theories/BioListProps.v
theories/PixFolderModel.v
theories/PixFolderProps.v
theories/PlyModel.v
theories/LaserFitModel.v
theories/LaserFitProps.v
theories/PlyProps.v
theories/TransfModel.v
theories/TransfProps.v
theories/TransfQuatProps.v
theories/TransfAffProps.v
theories/TreeModel.v
theories/TreeProps.v
theories/RemoveProps.v
theories/BinImgModel.v
theories/BinImgProps.v
theories/RosImgModel.v
theories/RosImgProps.v
theories/VirtualModel.v
theories/VirtualProps.v
theories/VirtualLaserProps.v
theories/AlrFilesModel.v
theories/AlrFilesProps.v
theories/AcfrFrameProps.v
theories/Mission0Model.v
theories/Mission0Props.v
theories/OverviewModel.v
theories/OverviewProps.v
theories/DecompModel.v
theories/DecompProps.v
theories/DecompBackProps.v
theories/StampFileModel.v
theories/StampFileProps.v
theories/FolderModel.v
theories/FolderProps.v
theories/SharpModel.v
theories/SharpProps.v
theories/PayCsvModel.v
theories/PayCsvProps.v
theories/PhinsAcfrModel.v
theories/PhinsAcfrProps.v
theories/ImgSizeModel.v
theories/ImgSizeProps.v
theories/DrawModel.v
theories/DrawProps.v
theories/LaserCfgModel.v
theories/LaserCfgProps.v
theories/OutNameModel.v
theories/OutNameProps.v
theories/StereoViewsModel.v
theories/StereoViewsProps.v
theories/CellModel.v
theories/CellProps.v
theories/ClipModel.v
theories/ClipProps.v
theories/BallModel.v
theories/BallProps.v
theories/DeclinModel.v
theories/DeclinProps.v
