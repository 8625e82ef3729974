.lia.cache
.nra.cache
__pycache__/
