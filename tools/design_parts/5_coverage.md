## What is modelled and what is not

| source (under `/repo/smrf`) | model | not modelled |
|---|---|---|
| `utils/queue.py` | `QueueModel`, `PipelineModel`, `OutputModel` | log messages, wall clock except "has the timeout expired" |
| `framework/model_framework.py`, `scripts/run_smrf` | `PipelineModel`, `SmrfTopo`, `WireModel`, `OutputModel`, `DataModel` (station filter), `StartModel` | log and greeting, `inicheck`'s own checks |
| `distribute/*.py` | `DistModel` (`image_data`), the loops in `PipelineModel`/`SmrfTopo`; each computation in the topic's model | log messages |
| `distribute/precipitation.py` | `DataModel`, `PptModel`, `StormsModel`, `StormRaceModel`, `MarksModel`, `SusongModel` | reading the storm days file (a parameter) |
| `distribute/wind/*.py` | `WinsModel`, `PptModel`, `NinjaModel`, `AscModel`, `OptModel` | parsing of numbers in the WindNinja files, the triangulation (given) |
| `distribute/vapor_pressure.py`, `envphys/vapor_pressure.py`, `envphys/core/{dewpt,iwbt}.c` | `SatModel`, `DewModel` | - |
| `envphys/core/topotherm.c`, `envphys/thermal/*` | `SatModel`, `ThermalModel` | - |
| `envphys/solar/*`, `distribute/solar.py`, `distribute/cloud_factor.py` | `SolarModel`, `SunModel`, `SpectrumModel` | rounding in scipy's interpolation and integration |
| `envphys/sunang.py` | `CalModel`, `SunModel` | printing |
| `envphys/albedo.py`, `distribute/albedo.py` | `AlbedoModel`, `OptModel` | - |
| `envphys/{snow,storms,precip}.py`, `envphys/nasde_model/*` | `NasdeModel`, `StormsModel`, `PptModel` | - |
| `spatial/*` | `KrigeModel`, `DkModel`, `SpatModel` | scipy's and pykrige's interpolation (parameters) |
| `data/*` | `DataModel`, `StepModel`, `LoadModel`, `GridWindModel`, `HrrrModel`, `SolarModel` (cloud factor) | parsing of files, map projections (parameters) |
| `output/output_netcdf.py` | `OutputModel`, `RunsModel`, `FilesModel` | constant attributes, those that say when a file was written, the projection |
| `output/output_hru.py` | `HruModel` | formatting of numbers |
| `data/load_topo.py` | `TopoModel` | the UTM conversion is a parameter |
| `utils/wind/*`, `scripts/gen_maxus` | `BresModel`, `HordModel`, `WindowModel`, `TbreakModel`, `PyWindModel`, `GenModel` | multiprocessing pool (calls are independent), `find_maxus` |
| `utils/utils.py`, `utils/io.py` | `CalModel`, `DataModel`, `BackupModel`, `StartModel`, `AscModel` | headers of the documentation |
