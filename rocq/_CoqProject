-Q theories Verif
theories/Cal_Model.v
theories/Cal_Spec.v
theories/Cal_Proofs.v
theories/P_Calendar.v
theories/PyNum.v
theories/Time_Model.v
theories/Time_Spec.v
theories/Time_Proofs.v
theories/Time_Proofs2.v
theories/Time_Proofs3.v
theories/P_Time.v
theories/Search_Model.v
theories/Search_Spec.v
theories/Search_Proofs.v
theories/Maxima_Proofs.v
theories/Peak_Proofs.v
theories/Events_Proofs.v
theories/Search_Proofs2.v
theories/P_Search.v
theories/Download_Model.v
theories/Download_Spec.v
theories/Download_Proofs.v
theories/Files_Model.v
theories/Files_Spec.v
theories/Files_Proofs.v
theories/P_Files.v
theories/Float64.v
theories/Vector_Model.v
theories/Vector_Spec.v
theories/Vector_Proofs.v
theories/Vector_Proofs2.v
theories/P_Vectors.v
theories/Units_Model.v
theories/Units_Spec.v
theories/Units_Proofs.v
theories/P_Units.v
theories/Real_Math.v
theories/Real_Math_Proofs.v
theories/Geo_Model.v
theories/Geo_Spec.v
theories/Geo_Proofs.v
theories/Geo_Proofs2.v
theories/Geo_Proofs3.v
theories/P_Geometry.v
theories/Almanac_Model.v
theories/Almanac_Spec.v
theories/Almanac_Proofs.v
theories/P_Almanac.v
theories/Curve_Model.v
theories/Curve_Spec.v
theories/Curve_Proofs.v
theories/Curve_Proofs2.v
theories/Curve_Proofs3.v
theories/P_Curve.v
theories/Kepler_Model.v
theories/Kepler_Spec.v
theories/Kepler_Proofs.v
theories/Kepler_Proofs2.v
theories/Kepler_Proofs3.v
theories/Kepler_Proofs4.v
theories/Kepler_Proofs5.v
theories/Kepler_Proofs6.v
theories/Kepler_Proofs7.v
theories/Kepler_Proofs8.v
theories/Kepler_Proofs9.v
theories/P_Kepler.v
theories/Float64_Proofs.v
theories/Float_Time_Model.v
theories/Float_Time_Spec.v
theories/Float_Time_Proofs.v
theories/Float_Time_Proofs2.v
theories/Float_Time_Proofs3.v
theories/Float_Time_Proofs4.v
theories/Float_Time_Proofs5.v
theories/P_Float_Time.v
theories/Cache_Model.v
theories/Cache_Spec.v
theories/Cache_Proofs.v
theories/P_Cache.v
theories/Light_Model.v
theories/Light_Spec.v
theories/Light_Proofs.v
theories/Light_Proofs2.v
theories/Light_Proofs3.v
theories/Light_Proofs4.v
theories/Light_Proofs5.v
theories/Light_Proofs6.v
theories/Light_Proofs7.v
theories/Parallax_Model.v
theories/Parallax_Proofs.v
theories/P_Light.v
theories/Find_Model.v
theories/Find_Spec.v
theories/Find_Proofs.v
theories/Find_Proofs2.v
theories/P_Find.v
theories/Planet_Model.v
theories/Planet_Spec.v
theories/Planet_Proofs.v
theories/Planet_Proofs2.v
theories/Planet_Float.v
theories/P_Planet.v
theories/Pi_Bounds.v
theories/Measure_Model.v
theories/Measure_Spec.v
theories/Measure_Proofs.v
theories/Measure_Proofs2.v
theories/Measure_Proofs3.v
theories/Measure_Proofs4.v
theories/P_Measure.v
theories/Sky_Model.v
theories/Sky_Spec.v
theories/Sky_Proofs.v
theories/Sky_Proofs2.v
theories/P_Sky.v
theories/Position_Model.v
theories/Position_Spec.v
theories/Position_Proofs.v
theories/Position_Proofs2.v
theories/P_Position.v
theories/Spin_Model.v
theories/Spin_Spec.v
theories/Spin_Proofs.v
theories/Spin_Proofs2.v
theories/Spin_Proofs3.v
theories/Spin_Proofs4.v
theories/P_Spin.v
theories/Nutation_Data.v
theories/Nutation_Model.v
theories/Nutation_Spec.v
theories/Nutation_Proofs.v
theories/Nutation_Proofs2.v
theories/Nutation_Proofs3.v
theories/Nutation_Proofs4.v
theories/Nutation_Proofs5.v
theories/Nutation_Proofs6.v
theories/P_Nutation.v
theories/Format_Model.v
theories/Format_Spec.v
theories/Format_Proofs.v
theories/Format_Proofs2.v
theories/Format_Proofs3.v
theories/P_Format.v
theories/Kernel_Model.v
theories/Kernel_Spec.v
theories/Kernel_Proofs.v
theories/P_Kernel.v
theories/Data_Model.v
theories/Data_Spec.v
theories/Data_Proofs.v
theories/Data_Proofs2.v
theories/Data_Proofs3.v
theories/P_Data.v
theories/Input_Model.v
theories/Input_Spec.v
theories/Input_Proofs.v
theories/P_Input.v
theories/Array_Model.v
theories/Array_Spec.v
theories/Array_Proofs.v
theories/Array_Proofs2.v
theories/Array_Proofs3.v
theories/P_Array.v
theories/Zone_Model.v
theories/Zone_Spec.v
theories/Zone_Proofs.v
theories/Zone_Proofs2.v
theories/P_Zone.v
theories/Sat_Model.v
theories/Sat_Spec.v
theories/Sat_Proofs.v
theories/P_Sat.v
theories/Const_Model.v
theories/Const_Spec.v
theories/Const_Proofs.v
theories/Const_Proofs2.v
theories/P_Const.v
theories/Columns_Model.v
theories/Columns_Spec.v
theories/Columns_Proofs.v
theories/Columns_Examples.v
theories/P_Columns.v
theories/SexaF_Model.v
theories/SexaF_Spec.v
theories/SexaF_Proofs.v
theories/SexaF_Proofs2.v
theories/SexaF_Proofs3.v
theories/SexaF_Examples.v
theories/P_SexaF.v
theories/Time_Parts_Proofs.v
theories/Frames_Model.v
theories/Frames_Spec.v
theories/Frames_Proofs.v
theories/Frames_Proofs2.v
theories/Frames_Proofs3.v
theories/P_Frames.v
theories/Taylor_Models.v
theories/Precession_Spec.v
theories/Precession_Proofs.v
theories/Precession_Proofs2.v
theories/Precession_Proofs3.v
theories/Precession_Proofs4.v
theories/P_Precession.v
theories/Elements_Model.v
theories/Elements_Spec.v
theories/Elements_Proofs.v
theories/Elements_Proofs2.v
theories/Elements_Proofs3.v
theories/Elements_Proofs4.v
theories/Elements_Proofs5.v
theories/Elements_Proofs6.v
theories/Elements_Proofs7.v
theories/P_Elements.v
theories/Pool_Model.v
theories/Pool_Spec.v
theories/Pool_Proofs.v
theories/P_Pool.v
theories/Loader_Model.v
theories/Loader_Spec.v
theories/Loader_Proofs.v
theories/Loader_Proofs2.v
theories/P_Loader.v
theories/Phases_Model.v
theories/Phases_Spec.v
theories/Phases_Proofs.v
theories/Phases_Proofs2.v
theories/Phases_Proofs3.v
theories/Phases_Proofs4.v
theories/Phases_Proofs5.v
theories/P_Phases.v
theories/CalF_Model.v
theories/CalF_Spec.v
theories/CalF_Proofs.v
theories/CalF_Proofs2.v
theories/P_CalF.v
theories/Mpc_Model.v
theories/Mpc_Spec.v
theories/Mpc_Proofs.v
theories/Mpc_Proofs2.v
theories/P_Mpc.v
theories/Wrap_Model.v
theories/Wrap_Spec.v
theories/Wrap_Proofs.v
theories/Wrap_Proofs2.v
theories/P_Wrap.v
theories/SepF_Model.v
theories/SepF_Spec.v
theories/SepF_Proofs.v
theories/SepF_Proofs2.v
theories/SepF_Proofs3.v
theories/P_SepF.v
theories/SearchF_Model.v
theories/SearchF_Spec.v
theories/SearchF_Proofs.v
theories/SearchF_Proofs2.v
theories/SearchF_Proofs3.v
theories/SearchF_Proofs4.v
theories/SearchF_Proofs5.v
theories/P_SearchF.v
theories/SphF_Model.v
theories/SphF_Spec.v
theories/SphF_Proofs.v
theories/SphF_Proofs2.v
theories/SphF_Proofs3.v
theories/P_SphF.v
theories/LightF_Model.v
theories/LightF_Spec.v
theories/LightF_Proofs.v
theories/LightF_Proofs2.v
theories/P_LightF.v
theories/RotF_Model.v
theories/RotF_Spec.v
theories/RotF_Proofs.v
theories/RotF_Proofs2.v
theories/RotF_Proofs3.v
theories/RotF_Proofs4.v
theories/P_RotF.v
theories/AltF_Model.v
theories/AltF_Proofs.v
theories/AltF_Proofs2.v
theories/P_AltF.v
theories/FrameF_Model.v
theories/FrameF_Spec.v
theories/FrameF_Proofs.v
theories/FrameF_Proofs2.v
theories/FrameF_Proofs3.v
theories/P_FrameF.v
theories/GeodF_Model.v
theories/GeodF_Spec.v
theories/GeodF_Proofs.v
theories/GeodF_Proofs2.v
theories/GeodF_Proofs3.v
theories/GeodF_Proofs4.v
theories/GeodF_Proofs5.v
theories/P_GeodF.v
theories/AberF_Model.v
theories/AberF_Spec.v
theories/AberF_Proofs.v
theories/AberF_Proofs2.v
theories/AberF_Proofs3.v
theories/P_AberF.v
theories/DeflF_Model.v
theories/DeflF_Spec.v
theories/DeflF_Proofs.v
theories/DeflF_Proofs2.v
theories/DeflF_Proofs3.v
theories/P_DeflF.v
theories/AppF_Model.v
theories/AppF_Spec.v
theories/AppF_Proofs.v
theories/AppF_Proofs2.v
theories/AppF_Proofs3.v
theories/AppF_Proofs4.v
theories/P_AppF.v
theories/Ut1F_Model.v
theories/Ut1F_Proofs.v
theories/P_Ut1F.v
theories/SplF_Model.v
theories/SplF_Spec.v
theories/SplF_Proofs.v
theories/SplF_Proofs2.v
theories/P_SplF.v
theories/DeltaF_Model.v
theories/DeltaF_Spec.v
theories/DeltaF_Proofs.v
theories/DeltaF_Proofs2.v
theories/P_DeltaF.v
theories/ReadF_Model.v
theories/ReadF_Spec.v
theories/ReadF_Proofs.v
theories/P_ReadF.v
theories/EraF_Model.v
theories/EraF_Proofs.v
theories/P_EraF.v
theories/ObliqF_Model.v
theories/ObliqF_Spec.v
theories/ObliqF_Proofs.v
theories/P_ObliqF.v
theories/PrecF_Model.v
theories/PrecF_Spec.v
theories/PrecF_Proofs.v
theories/P_PrecF.v
theories/FundF_Model.v
theories/FundF_Spec.v
theories/FundF_Proofs.v
theories/P_FundF.v
theories/CompF_Model.v
theories/CompF_Spec.v
theories/CompF_Proofs.v
theories/P_CompF.v
theories/TdbF_Model.v
theories/TdbF_Spec.v
theories/TdbF_Proofs.v
theories/P_TdbF.v
theories/TdbF_Model2.v
theories/TdbF_Proofs2.v
theories/P_TdbF2.v
theories/GastF_Model.v
theories/GastF_Proofs.v
theories/P_GastF.v
