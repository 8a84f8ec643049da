-Q theories Verif
theories/Py.v
theories/Str.v
theories/Sample_Model.v
theories/Sample_Spec.v
theories/Sample_Proofs.v
theories/SampleRef_Model.v
theories/SampleRef_Spec.v
theories/SampleRef_Proofs.v
theories/TrainedModel_Model.v
theories/TrainedModel_Spec.v
theories/TrainedModel_Proofs.v
theories/Sample_Props.v
theories/Rng.v
theories/Sampling_Model.v
theories/Sampling_Spec.v
theories/Sampling_Proofs.v
theories/Labels_Proofs.v
theories/Sampling_Props.v
theories/Cplx.v
theories/Reflectivity_Model.v
theories/Reflectivity_Spec.v
theories/Reflectivity_Proofs.v
theories/ReflectivityFlux_Proofs.v
theories/Reflectivity_Props.v
theories/ReflectivityDecay_Spec.v
theories/ReflectivityDecay_Proofs.v
theories/ReflectivityDecay_Props.v
theories/Simulation_Model.v
theories/Simulation_Spec.v
theories/Simulation_Proofs.v
theories/SldProfile_Model.v
theories/SldProfile_Spec.v
theories/SldProfile_Proofs.v
theories/Interp_Model.v
theories/Interp_Spec.v
theories/Interp_Proofs.v
theories/Simulation_Props.v
theories/Arr.v
theories/Preproc_Model.v
theories/Preproc_Spec.v
theories/Preproc_Proofs.v
theories/OutPreproc_Proofs.v
theories/Float64.v
theories/NRng.v
theories/Noise_Model.v
theories/Noise_Spec.v
theories/Noise_Proofs.v
theories/Generator_Model.v
theories/Generator_Spec.v
theories/Generator_Proofs.v
theories/FloatTrain.v
theories/Trainer_Model.v
theories/Trainer_Spec.v
theories/Trainer_Proofs.v
theories/Training_Props.v
theories/Generator_Props.v
theories/Footprint_Model.v
theories/Footprint_Spec.v
theories/Footprint_Proofs.v
theories/Scan_Model.v
theories/Scan_Spec.v
theories/Scan_Proofs.v
theories/Scan_Props.v
theories/Spec_Model.v
theories/SpecFile_Spec.v
theories/SpecLoader_Spec.v
theories/Spec_Proofs.v
theories/SpecLoader_Proofs.v
theories/Spec_Props.v
theories/Fio_Model.v
theories/P08_Model.v
theories/FioFile_Spec.v
theories/P08_Spec.v
theories/P08Scan_Spec.v
theories/Fio_Proofs.v
theories/P08_Proofs.v
theories/P08Loader_Proofs.v
theories/FioLoader_Proofs.v
theories/Combine_Proofs.v
theories/Fio_Props.v
theories/Fitter_Model.v
theories/Fitter_Spec.v
theories/Fitter_Proofs.v
theories/FitterOut_Proofs.v
theories/Polish_Proofs.v
theories/Choice_Proofs.v
theories/FitterValue_Spec.v
theories/FitterValue_Proofs.v
theories/Fitter_Props.v
theories/FileFitter_Model.v
theories/FileFitter_Spec.v
theories/FileFitter_Proofs.v
theories/FileRange_Proofs.v
theories/FileFitter_Props.v
theories/Path_Model.v
theories/Utils_Model.v
theories/Utils_Spec.v
theories/Path_Proofs.v
theories/Utils_Proofs.v
theories/Utils_Props.v
theories/Prediction_Model.v
theories/Prediction_Spec.v
theories/Prediction_Proofs.v
theories/Profile_Proofs.v
theories/Prediction_Props.v
theories/Network_Model.v
theories/Network_Spec.v
theories/Network_Proofs.v
theories/Pipeline_Proofs.v
theories/Network_Props.v
theories/ScanFit_Model.v
theories/ScanFit_Spec.v
theories/ScanFit_Proofs.v
theories/ScanFits_Proofs.v
theories/ScanFitGL_Proofs.v
theories/ScanPlot_Proofs.v
theories/ScanFit_Props.v
theories/FioHeader_Spec.v
theories/FioHeader_Proofs.v
theories/FioHeader_Props.v
theories/P08Images_Spec.v
theories/P08Images_Proofs.v
theories/P08Images_Props.v
theories/FioTable_Proofs.v
theories/FioTable_Props.v
theories/FitterValue_Props.v
theories/Plot_Model.v
theories/Plot_Spec.v
theories/Plot_Proofs.v
theories/Plot_Props.v
theories/Show_Model.v
theories/Show_Spec.v
theories/Show_Proofs.v
theories/Show_Props.v
theories/Double_Model.v
theories/Double_Spec.v
theories/Double_Proofs.v
theories/Double_Props.v
theories/ReflectivityLimit_Spec.v
theories/ReflectivityLimit_Proofs.v
theories/ReflectivityLimit_Props.v
theories/Session_Model.v
theories/Session_Spec.v
theories/Session_Proofs.v
theories/Session_Props.v
theories/SampleObj_Model.v
theories/SampleObj_Spec.v
theories/SampleObj_Proofs.v
theories/SampleObj_Props.v
theories/Helpers_Model.v
theories/Helpers_Spec.v
theories/Helpers_Proofs.v
theories/Helpers_Props.v
theories/Setup_Spec.v
theories/Setup_Proofs.v
theories/Setup_Props.v
theories/Units_Spec.v
theories/Units_Proofs.v
theories/Units_Props.v
theories/Container_Model.v
theories/Container_Spec.v
theories/Container_Proofs.v
theories/Container_Props.v
theories/Callbacks_Model.v
theories/Callbacks_Spec.v
theories/Callbacks_Proofs.v
theories/Callbacks_Props.v
theories/Mixer_Model.v
theories/Mixer_Spec.v
theories/Mixer_Proofs.v
theories/Mixer_Props.v
theories/Loss_Proofs.v
theories/Loss_Props.v
theories/Identify_Spec.v
theories/Identify_Proofs.v
theories/Identify_Props.v
theories/FitterUndefined_Proofs.v
theories/FitterUndefined_Props.v
theories/FitterErr_Props.v
theories/GenObj_Model.v
theories/GenObj_Props.v
theories/DoubleMse_Model.v
theories/DoubleMse_Spec.v
theories/DoubleMse_Proofs.v
theories/DoubleMse_Props.v
theories/DoubleArr_Model.v
theories/DoubleArr_Proofs.v
theories/DoubleArr_Props.v
theories/GenFresh_Props.v
theories/GenUse_Props.v
theories/DoubleDraw_Model.v
theories/DoubleDraw_Proofs.v
theories/DoubleDraw_Props.v
theories/GenSize_Props.v
theories/ScanDiff_Model.v
theories/ScanDiff_Props.v
theories/DoubleUnits_Model.v
theories/DoubleUnits_Proofs.v
theories/DoubleUnits_Props.v
theories/ScanFile_Props.v
theories/DoubleRange_Model.v
theories/DoubleRange_Proofs.v
theories/DoubleRange_Props.v
theories/DoubleMax_Props.v
theories/DoubleShift_Model.v
theories/DoubleShift_Props.v
theories/DoubleScale_Props.v
theories/DoubleNorm_Props.v
theories/DoubleLine_Props.v
